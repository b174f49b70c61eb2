(** JSON texts: the reader of JsonText.v reads exactly the texts of the grammar, each text has one value, and
    what is written is read back.  Used by PropsStatement.v. *)
From Verif Require Import Base Codec Json PyText JsonText.
Local Open Scope N_scope.

(** ** Specification: the grammar of RFC 8259 *)

Definition blank (w : str) : Prop := Forall (fun c => In c [32; 9; 10; 13]) w.

(** a hexadecimal digit and its value; four of them *)
Definition digit_of (c v : N) : Prop := (v < 10 /\ c = 48 + v) \/ (10 <= v < 16 /\ (c = 87 + v \/ c = 55 + v)).
Definition four (t : str) (u : N) : Prop :=
  exists a b c d va vb vc vd, t = [a; b; c; d] /\ digit_of a va /\ digit_of b vb /\ digit_of c vc /\ digit_of d vd /\
    u = va * 4096 + vb * 256 + vc * 16 + vd.

(** a character of a string, and how it may be written *)
Inductive char_text : N -> str -> Prop :=
| Ch_plain : forall c, 32 <= c -> c <> 34 -> c <> 92 -> char_text c [c]
| Ch_escape : forall e c, In (e, c) [(34, 34); (92, 92); (47, 47); (98, 8); (102, 12); (110, 10); (114, 13); (116, 9)] ->
    char_text c [92; e]
| Ch_unit : forall u t, four t u -> ~ (55296 <= u < 57344) -> char_text u ([92; 117] ++ t)
| Ch_pair : forall u v t t', four t u -> four t' v -> 55296 <= u < 56320 -> 56320 <= v < 57344 ->
    char_text (65536 + (u - 55296) * 1024 + (v - 56320)) ([92; 117] ++ t ++ [92; 117] ++ t').
Definition string_text (s t : str) : Prop := exists ts, Forall2 char_text s ts /\ t = [34] ++ concat ts ++ [34].

(** decimal digits without a superfluous zero, and their value *)
Definition digits (t : str) : Prop :=
  t <> nil /\ Forall (fun c => 48 <= c <= 57) t /\ (hd 0 t = 48 -> t = [48]).
Definition int_text (max : nat) (z : Z) (t : str) : Prop :=
  exists b, digits b /\ (length b <= max)%nat /\ ((t = b /\ z = Z.of_N (undec b)) \/ (t = 45 :: b /\ z = (- Z.of_N (undec b))%Z)).
(** a number that is not an integer: what it means is up to the library *)
Definition float_text (t : str) : Prop :=
  Forall (fun c => 48 <= c <= 57 \/ In c [43; 45; 46; 69; 101]) t /\
  exists sign b c r, t = sign ++ b /\ (sign = nil \/ sign = [45]) /\ b = c :: r /\ 48 <= c <= 57 /\ ~ Forall (fun x => 48 <= x <= 57) b.

(** the members of an object as a dict: a name that occurs again gets the new value *)
Inductive dict_of : list (str * json) -> list (str * json) -> Prop :=
| D_empty : dict_of nil nil
| D_new : forall l o k j, dict_of l o -> ~ In k (map fst o) -> dict_of (l ++ [(k, j)]) (o ++ [(k, j)])
| D_again : forall l o1 o2 k j j', dict_of l (o1 ++ (k, j) :: o2) -> ~ In k (map fst o1) -> dict_of (l ++ [(k, j')]) (o1 ++ (k, j') :: o2).

(** [value_text d j t]: [t] is a text of [j], nested at most [d] deep *)
Inductive value_text (lib : JsonLib) : nat -> json -> str -> Prop :=
| V_null : forall d, value_text lib d JNull (s2l "null")
| V_true : forall d, value_text lib d (JBool true) (s2l "true")
| V_false : forall d, value_text lib d (JBool false) (s2l "false")
| V_nan : forall d, value_text lib d (JSpecial 0) (s2l "NaN")
| V_inf : forall d, value_text lib d (JSpecial 1) (s2l "Infinity")
| V_neg_inf : forall d, value_text lib d (JSpecial 2) (s2l "-Infinity")
| V_int : forall d z t, int_text (jl_digits lib) z t -> value_text lib d (JInt z) t
| V_float : forall d n p t, float_text t -> jl_read_float lib t = Some (inl (n, p)) -> value_text lib d (JFloat n p) t
| V_special : forall d k t, float_text t -> jl_read_float lib t = Some (inr k) -> value_text lib d (JSpecial k) t
| V_string : forall d s t, string_text s t -> value_text lib d (JStr s) t
| V_empty_list : forall d w, blank w -> value_text lib (S d) (JList nil) (s2l "[" ++ w ++ s2l "]")
| V_list : forall d l w t, blank w -> elements_text lib d l t -> value_text lib (S d) (JList l) (s2l "[" ++ w ++ t ++ s2l "]")
| V_empty_object : forall d w, blank w -> value_text lib (S d) (JObj nil) (s2l "{" ++ w ++ s2l "}")
| V_object : forall d l o w t, blank w -> members_text lib d l t -> dict_of l o ->
    value_text lib (S d) (JObj o) (s2l "{" ++ w ++ t ++ s2l "}")
with elements_text (lib : JsonLib) : nat -> list json -> str -> Prop :=
| E_last : forall d j t w, value_text lib d j t -> blank w -> elements_text lib d [j] (t ++ w)
| E_more : forall d j l t w w' t', value_text lib d j t -> blank w -> blank w' -> elements_text lib d l t' ->
    elements_text lib d (j :: l) (t ++ w ++ s2l "," ++ w' ++ t')
with members_text (lib : JsonLib) : nat -> list (str * json) -> str -> Prop :=
| M_last : forall d k j tk t w1 w2 w, string_text k tk -> blank w1 -> blank w2 -> value_text lib d j t -> blank w ->
    members_text lib d [(k, j)] (tk ++ w1 ++ s2l ":" ++ w2 ++ t ++ w)
| M_more : forall d k j l tk t w1 w2 w w' t', string_text k tk -> blank w1 -> blank w2 -> value_text lib d j t -> blank w -> blank w' ->
    members_text lib d l t' -> members_text lib d ((k, j) :: l) (tk ++ w1 ++ s2l ":" ++ w2 ++ t ++ w ++ s2l "," ++ w' ++ t').

Definition json_text (lib : JsonLib) (j : json) (s : str) : Prop :=
  exists w t w', s = w ++ t ++ w' /\ blank w /\ blank w' /\ value_text lib (jl_depth lib) j t.

(** ** Proofs *)

Scheme value_text_mut := Minimality for value_text Sort Prop
  with elements_text_mut := Minimality for elements_text Sort Prop
  with members_text_mut := Minimality for members_text Sort Prop.
Combined Scheme texts_mut from value_text_mut, elements_text_mut, members_text_mut.

(** *** Dicts *)

Lemma dict_set_new : forall (d : list (str * json)) k j, ~ In k (map fst d) -> dict_set str_eqb k j d = d ++ [(k, j)].
Proof.
  induction d as [|[k' j'] d IH]; intros k j N; cbn [dict_set app]; [reflexivity|].
  cbn [map fst In] in N. destruct (str_eqb k k') eqn:E; [apply str_eqb_spec in E; subst; tauto|]. rewrite IH by tauto. reflexivity.
Qed.
Lemma to_dict_nodup : forall l, NoDup (map fst l) -> to_dict l = l.
Proof.
  intros l. unfold to_dict.
  enough (Q : forall l d, NoDup (map fst (d ++ l)) -> fold_left (fun d kv => dict_set str_eqb (fst kv) (snd kv) d) l d = d ++ l)
    by exact (Q l nil).
  clear l. induction l as [|[k j] l IH]; intros d N; cbn [fold_left fst snd]; [rewrite app_nil_r; reflexivity|].
  rewrite map_app in N. cbn [map fst] in N. apply NoDup_remove in N as N'. destruct N' as (_ & N').
  rewrite dict_set_new; [|intros I; apply N', in_or_app; left; exact I].
  rewrite IH; [rewrite <- app_assoc; reflexivity|]. rewrite <- app_assoc. cbn [app]. rewrite map_app. exact N.
Qed.
Lemma dict_set_again : forall (o1 o2 : list (str * json)) k j j', ~ In k (map fst o1) ->
  dict_set str_eqb k j' (o1 ++ (k, j) :: o2) = o1 ++ (k, j') :: o2.
Proof.
  induction o1 as [|[k' x] o1 IH]; intros o2 k j j' N; cbn [app dict_set].
  - rewrite (proj2 (str_eqb_spec k k) eq_refl). reflexivity.
  - cbn [map fst In] in N. destruct (str_eqb k k') eqn:E; [apply str_eqb_spec in E; subst; tauto|]. rewrite IH by tauto. reflexivity.
Qed.
Lemma first_in : forall (o : list (str * json)) k, In k (map fst o) -> exists o1 j o2, o = o1 ++ (k, j) :: o2 /\ ~ In k (map fst o1).
Proof.
  induction o as [|[k' j'] o IH]; intros k I; [contradiction|]. destruct (str_eqb k k') eqn:E.
  - apply str_eqb_spec in E. subst k'. exists nil, j', o. split; [reflexivity|intros []].
  - assert (Ne : k' <> k) by (intros ->; rewrite (proj2 (str_eqb_spec k k) eq_refl) in E; discriminate).
    destruct I as [Q|I]; [contradiction|]. destruct (IH k I) as (o1 & j & o2 & -> & N). exists ((k', j') :: o1), j, o2. split; [reflexivity|].
    intros [Q|Q]; [exact (Ne Q)|exact (N Q)].
Qed.
Lemma to_dict_snoc : forall l k j, to_dict (l ++ [(k, j)]) = dict_set str_eqb k j (to_dict l).
Proof. intros l k j. unfold to_dict. rewrite fold_left_app. reflexivity. Qed.
Lemma to_dict_of : forall l, dict_of l (to_dict l).
Proof.
  induction l as [|[k j] l IH] using rev_ind; [apply D_empty|]. rewrite to_dict_snoc.
  destruct (in_dec (list_eq_dec N.eq_dec) k (map fst (to_dict l))) as [I|N].
  - destruct (first_in _ _ I) as (o1 & j0 & o2 & Q & N). rewrite Q in *. rewrite dict_set_again by assumption. apply D_again with (j := j0); assumption.
  - rewrite dict_set_new by assumption. apply D_new; assumption.
Qed.
Lemma dict_of_det : forall l o, dict_of l o -> o = to_dict l.
Proof.
  induction 1 as [|l o k j D IH N|l o1 o2 k j j' D IH N]; [reflexivity|rewrite to_dict_snoc, <- IH; symmetry; apply dict_set_new, N|].
  rewrite to_dict_snoc, <- IH. symmetry. apply dict_set_again, N.
Qed.
Lemma NoDup_rev_snoc : forall (l : list str) k, NoDup l -> ~ In k l -> NoDup (l ++ [k]).
Proof.
  induction l as [|x l IH]; intros k N I; cbn [app]; [constructor; [intros []|constructor]|].
  inversion N; subst. constructor; [|apply IH; [assumption|intros Q; apply I; right; exact Q]].
  intros Q. apply in_app_or in Q. destruct Q as [Q|[->|[]]]; [contradiction|apply I; left; reflexivity].
Qed.
Lemma dict_of_unique : forall l o, dict_of l o -> NoDup (map fst o).
Proof.
  induction 1 as [|l o k j D IH N|l o1 o2 k j j' D IH N]; [constructor| |].
  - rewrite map_app. cbn [map fst]. apply NoDup_rev_snoc; assumption.
  - rewrite map_app in *. exact IH.
Qed.

(** *** Blanks *)

Lemma is_ws_spec : forall c, is_ws c = true <-> In c [32; 9; 10; 13].
Proof. intros c. unfold is_ws. rewrite !orb_true_iff, !N.eqb_eq. cbn [In]. intuition. Qed.

Definition no_ws (s : str) : Prop := match s with c :: _ => is_ws c = false | nil => True end.
Lemma skip_split : forall s, exists w, blank w /\ s = w ++ skip_ws s /\ no_ws (skip_ws s).
Proof.
  induction s as [|c s IH]; cbn [skip_ws].
  - exists nil. repeat split; constructor.
  - destruct (is_ws c) eqn:E.
    + destruct IH as (w & B & Q & N). exists (c :: w). split; [constructor; [apply is_ws_spec, E|exact B]|]. split; [cbn; f_equal; exact Q|exact N].
    + exists nil. split; [constructor|]. split; [reflexivity|exact E].
Qed.
Lemma skip_blank : forall w s, blank w -> no_ws s -> skip_ws (w ++ s) = s.
Proof.
  induction w as [|c w IH]; intros s B N; cbn [app].
  - destruct s as [|c s]; [reflexivity|]. cbn in N |- *. rewrite N. reflexivity.
  - inversion B; subst. cbn [skip_ws]. rewrite (proj2 (is_ws_spec c)) by assumption. apply IH; assumption.
Qed.
Lemma skip_all : forall w, blank w -> skip_ws w = nil.
Proof. intros w B. rewrite <- (app_nil_r w) at 1. apply skip_blank; [assumption|exact Logic.I]. Qed.

(** *** Strings *)

Lemma hex_value_spec : forall c v, hex_value c = Some v <-> digit_of c v.
Proof.
  intros c v. unfold hex_value, digit_of.
  destruct ((48 <=? c) && (c <=? 57)) eqn:E1; [split; [intros [= <-]|intros H; f_equal]; lia|].
  destruct ((97 <=? c) && (c <=? 102)) eqn:E2; [split; [intros [= <-]|intros H; f_equal]; lia|].
  destruct ((65 <=? c) && (c <=? 70)) eqn:E3; [split; [intros [= <-]|intros H; f_equal]; lia|].
  split; [discriminate|lia].
Qed.
Lemma hex4_spec : forall a b c d u, hex4 a b c d = Some u <-> four [a; b; c; d] u.
Proof.
  intros a b c d u. unfold hex4, four. split.
  - destruct (hex_value a) as [va|] eqn:Ea; [|discriminate]. destruct (hex_value b) as [vb|] eqn:Eb; [|discriminate].
    destruct (hex_value c) as [vc|] eqn:Ec; [|discriminate]. destruct (hex_value d) as [vd|] eqn:Ed; [|discriminate].
    intros [= <-]. exists a, b, c, d, va, vb, vc, vd. split; [reflexivity|]. rewrite <- !hex_value_spec. repeat (split; [assumption|]). lia.
  - intros (a' & b' & c' & d' & va & vb & vc & vd & Q & H1 & H2 & H3 & H4 & ->). injection Q as <- <- <- <-.
    apply hex_value_spec in H1, H2, H3, H4. rewrite H1, H2, H3, H4. f_equal. lia.
Qed.

Lemma simple_escape_spec : forall e c, simple_escape e = Some c <->
  In (e, c) [(34, 34); (92, 92); (47, 47); (98, 8); (102, 12); (110, 10); (114, 13); (116, 9)].
Proof.
  intros e c. unfold simple_escape. cbn [In]. split.
  - repeat match goal with |- context [if ?x =? ?y then _ else _] => destruct (N.eqb_spec x y); [intros [= <-]; subst; tauto|] end. discriminate.
  - intros H. repeat (destruct H as [H|H]; [injection H as <- <-; reflexivity|]). contradiction.
Qed.

Lemma chars_char : forall c t s, char_text c t -> chars (t ++ s) = cons_to c (chars s).
Proof.
  intros c t s [c' L N1 N2|e c' I|u t' F Ns|u v t1 t2 F1 F2 R1 R2].
  - cbn [app chars]. rewrite (proj2 (N.eqb_neq c' QUOTE)), (proj2 (N.eqb_neq c' BACKSLASH)), (proj2 (N.ltb_ge c' 32)) by assumption. reflexivity.
  - cbn [app]. apply simple_escape_spec in I. cbn [chars]. change (92 =? QUOTE) with false. change (92 =? BACKSLASH) with true. cbv iota. rewrite I. reflexivity.
  - pose proof F as (a & b & c' & d & _ & _ & _ & _ & -> & _). apply hex4_spec in F.
    cbn [app chars]. change (92 =? QUOTE) with false. change (92 =? BACKSLASH) with true. change (simple_escape 117) with (@None N). change (117 =? 117) with true. cbv iota.
    rewrite F. replace (is_high u) with false by (unfold is_high; lia). replace (is_low u) with false by (unfold is_low; lia). reflexivity.
  - pose proof F1 as (a & b & c' & d & _ & _ & _ & _ & -> & _). pose proof F2 as (a' & b' & c2 & d' & _ & _ & _ & _ & -> & _).
    apply hex4_spec in F1, F2.
    cbn [app chars]. change (92 =? QUOTE) with false. change (92 =? BACKSLASH) with true. change (simple_escape 117) with (@None N). change (117 =? 117) with true. cbn [andb]. cbv iota.
    rewrite F1. replace (is_high u) with true by (unfold is_high; lia). cbv iota. rewrite F2. replace (is_low v) with true by (unfold is_low; lia). reflexivity.
Qed.
Lemma chars_complete : forall s ts r, Forall2 char_text s ts -> chars (concat ts ++ 34 :: r) = Some (s, r).
Proof.
  intros s ts r F. induction F as [|c t s ts C F IH]; [reflexivity|]. cbn [concat]. rewrite <- app_assoc, (chars_char _ _ _ C), IH. reflexivity.
Qed.
Lemma cons_to_inv : forall c x s r, cons_to c x = Some (s, r) -> exists s', s = c :: s' /\ x = Some (s', r).
Proof. intros c [[s' r']|] s r H; [|discriminate]. injection H as <- <-. eauto. Qed.
Lemma chars_sound : forall n t s r, (length t <= n)%nat -> chars t = Some (s, r) -> exists ts, Forall2 char_text s ts /\ t = concat ts ++ 34 :: r.
Proof.
  assert (STEP : forall c ct rest s r t, char_text c ct -> t = ct ++ rest -> (exists s', s = c :: s' /\ chars rest = Some (s', r)) ->
    (forall s' , chars rest = Some (s', r) -> exists ts, Forall2 char_text s' ts /\ rest = concat ts ++ 34 :: r) ->
    exists ts, Forall2 char_text s ts /\ t = concat ts ++ 34 :: r).
  { intros c ct rest s r t C -> (s' & -> & H) IH. destruct (IH s' H) as (ts & F & ->). exists (ct :: ts). split; [constructor; assumption|].
    cbn [concat]. rewrite <- app_assoc. reflexivity. }
  induction n as [|n IH]; intros [|c t] s r L H; try (cbn in L; lia); try discriminate H. cbn [length] in L. cbn [chars] in H.
  destruct (c =? QUOTE) eqn:E1.
  { injection H as <- <-. apply N.eqb_eq in E1. subst. exists nil. split; constructor. }
  destruct (c =? BACKSLASH) eqn:E2.
  - apply N.eqb_eq in E2. change BACKSLASH with 92 in E2. subst c. destruct t as [|e t]; [discriminate|]. cbn [length] in L.
    destruct (simple_escape e) as [x|] eqn:Ee.
    + apply cons_to_inv in H. apply (STEP x [92; e] t s r); [constructor; apply simple_escape_spec, Ee|reflexivity|exact H|]. intros s' H'. apply IH; [lia|exact H'].
    + destruct (e =? 117) eqn:E3; [|discriminate]. apply N.eqb_eq in E3. subst e.
      destruct t as [|h1 [|h2 [|h3 [|h4 t]]]]; try discriminate. cbn [length] in L. destruct (hex4 h1 h2 h3 h4) as [u|] eqn:Eu; [|discriminate].
      apply hex4_spec in Eu. destruct (is_high u) eqn:Hu.
      * destruct t as [|b' [|u' [|g1 [|g2 [|g3 [|g4 t]]]]]]; try discriminate. cbn [length] in L.
        destruct ((b' =? BACKSLASH) && (u' =? 117)) eqn:Eb; [|discriminate]. apply andb_true_iff in Eb. destruct Eb as [Eb1 Eb2]. apply N.eqb_eq in Eb1, Eb2. subst b' u'.
        destruct (hex4 g1 g2 g3 g4) as [v|] eqn:Ev; [|discriminate]. apply hex4_spec in Ev. destruct (is_low v) eqn:Lv; [|discriminate].
        apply cons_to_inv in H. apply (STEP (from_pair u v) ([92; 117] ++ [h1; h2; h3; h4] ++ [92; 117] ++ [g1; g2; g3; g4]) t s r); [|reflexivity|exact H|].
        { apply Ch_pair; try assumption; unfold is_high, is_low in *; lia. }
        intros s' H'. apply IH; [lia|exact H'].
      * destruct (is_low u) eqn:Lu; [discriminate|]. apply cons_to_inv in H.
        apply (STEP u ([92; 117] ++ [h1; h2; h3; h4]) t s r); [|reflexivity|exact H|].
        { apply Ch_unit; [assumption|]. unfold is_high, is_low in *; lia. }
        intros s' H'. apply IH; [lia|exact H'].
  - destruct (c <? 32) eqn:E3; [discriminate|]. apply cons_to_inv in H. apply N.eqb_neq in E1, E2. apply N.ltb_ge in E3.
    apply (STEP c [c] t s r); [constructor; assumption|reflexivity|exact H|]. intros s' H'. apply IH; [lia|exact H'].
Qed.

(** *** Numbers *)

Lemma is_digit_spec : forall c, is_digit c = true <-> 48 <= c <= 57.
Proof. intros c. unfold is_digit. lia. Qed.
Lemma all_digits : forall t, forallb is_digit t = true <-> Forall (fun c => 48 <= c <= 57) t.
Proof. intros t. rewrite forallb_forall, Forall_forall. split; intros H x I; apply is_digit_spec, H, I. Qed.
Lemma num_char_spec : forall c, num_char c = true <-> (48 <= c <= 57 \/ In c [43; 45; 46; 69; 101]).
Proof. intros c. unfold num_char. rewrite !orb_true_iff, !N.eqb_eq, is_digit_spec. cbn [In]. intuition. Qed.
Lemma plain_digits_spec : forall t, plain_digits t = true <-> digits t.
Proof.
  intros [|c t]; unfold plain_digits, digits.
  - split; [discriminate|intros (H & _); congruence].
  - rewrite andb_true_iff, all_digits. cbn [hd]. split.
    + intros (F & Z). split; [discriminate|]. split; [assumption|]. intros ->. change (48 =? 48) with true in Z. cbn in Z. destruct t; [reflexivity|discriminate].
    + intros (_ & F & Z). split; [assumption|]. destruct (N.eqb_spec c 48) as [->|N]; [|reflexivity]. specialize (Z eq_refl). injection Z as ->. reflexivity.
Qed.

Definition delim (r : str) : Prop := match r with c :: _ => num_char c = false | nil => True end.
Lemma span_all : forall t r, forallb num_char t = true -> delim r -> span_num (t ++ r) = (t, r).
Proof.
  induction t as [|c t IH]; intros r F D; cbn [app].
  - destruct r as [|c r]; [reflexivity|]. cbn in *. rewrite D. reflexivity.
  - cbn in F. apply andb_true_iff in F. destruct F as [Fc F]. cbn [span_num]. rewrite Fc, (IH r F D). reflexivity.
Qed.
Lemma span_split : forall s t r, span_num s = (t, r) -> s = t ++ r /\ forallb num_char t = true /\ delim r.
Proof.
  induction s as [|c s IH]; intros t r H; cbn [span_num] in H.
  - injection H as <- <-. repeat split.
  - destruct (num_char c) eqn:E.
    + destruct (span_num s) as [a b]. injection H as <- <-. destruct (IH a b eq_refl) as (-> & F & D). split; [reflexivity|]. split; [cbn; rewrite E; exact F|exact D].
    + injection H as <- <-. split; [reflexivity|]. split; [reflexivity|exact E].
Qed.
Lemma digit_num : forall c, is_digit c = true -> num_char c = true.
Proof. intros c H. unfold num_char. rewrite H. reflexivity. Qed.

Lemma digits_start : forall b, digits b -> exists c r, b = c :: r /\ is_digit c = true /\ forallb is_digit b = true.
Proof.
  intros [|c r] (N & F & _); [congruence|]. exists c, r. split; [reflexivity|]. split; [inversion F; apply is_digit_spec; assumption|apply all_digits; assumption].
Qed.
Lemma not_minus : forall c, is_digit c = true -> (c =? 45) = false.
Proof. intros c H. apply is_digit_spec in H. apply N.eqb_neq. lia. Qed.
Lemma forallb_digit_num : forall t, forallb is_digit t = true -> forallb num_char t = true.
Proof. intros t H. apply forallb_forall. intros x I. apply digit_num. rewrite forallb_forall in H. auto. Qed.

Lemma int_complete : forall lib z t, int_text (jl_digits lib) z t ->
  num_start t = true /\ forallb num_char t = true /\ read_number lib t = Some (JInt z).
Proof.
  intros lib z t (b & D & L & [(-> & ->)|(-> & ->)]); destruct (digits_start b D) as (c & r & E & Dc & Da); apply plain_digits_spec in D.
  - subst b. split; [cbn; rewrite Dc; reflexivity|]. split; [apply forallb_digit_num, Da|]. unfold read_number. rewrite (not_minus c Dc). rewrite D.
    rewrite (proj2 (Nat.leb_le _ _) L). reflexivity.
  - subst b. split; [cbn; rewrite Dc; reflexivity|]. split; [exact (forallb_digit_num _ Da)|]. unfold read_number. change (45 =? 45) with true. cbv iota.
    rewrite D, (proj2 (Nat.leb_le _ _) L). reflexivity.
Qed.
Lemma float_complete : forall lib x t, float_text t -> jl_read_float lib t = Some x ->
  num_start t = true /\ forallb num_char t = true /\ read_number lib t = Some (float_json x).
Proof.
  intros lib j t (F & sign & b & c & r & -> & S & -> & Dc & Nd) R. apply is_digit_spec in Dc.
  assert (Np : plain_digits (c :: r) = false).
  { destruct (plain_digits (c :: r)) eqn:P; [|reflexivity]. apply plain_digits_spec in P. destruct P as (_ & P & _). contradiction. }
  assert (Na : forallb is_digit (c :: r) = false).
  { destruct (forallb is_digit (c :: r)) eqn:P; [|reflexivity]. apply all_digits in P. contradiction. }
  split; [|split].
  - destruct S as [->| ->]; cbn; rewrite Dc; reflexivity.
  - apply forallb_forall. intros x I. apply num_char_spec. rewrite Forall_forall in F. auto.
  - unfold read_number. destruct S as [->| ->]; cbn [app].
    + rewrite (not_minus c Dc), Np, Na; cbn [app] in R; rewrite R. reflexivity.
    + change (45 =? 45) with true. cbv iota. rewrite Np, Na; cbn [app] in R; rewrite R. reflexivity.
Qed.
Lemma number_sound : forall lib d s t r j, num_start s = true -> span_num s = (t, r) -> read_number lib t = Some j -> s = t ++ r /\ value_text lib d j t.
Proof.
  intros lib d s t r j St Sp R. destruct (span_split _ _ _ Sp) as (E & F & _). split; [assumption|].
  assert (B : exists sign c b, t = sign ++ c :: b /\ (sign = nil \/ sign = [45]) /\ is_digit c = true).
  { destruct s as [|c s]; [discriminate|]. cbn [num_start] in St. cbn [span_num] in Sp. apply orb_true_iff in St. destruct St as [St|St].
    - rewrite (digit_num c St) in Sp. destruct (span_num s) as [a b]. injection Sp as <- <-. exists nil, c, a. auto.
    - apply andb_true_iff in St. destruct St as [Ec Ed]. apply N.eqb_eq in Ec. subst c. destruct s as [|c s]; [discriminate|]. cbn [span_num] in Sp.
      change (num_char 45) with true in Sp. cbv iota in Sp. rewrite (digit_num c Ed) in Sp. destruct (span_num s) as [a b]. injection Sp as <- <-. exists [45], c, a. auto. }
  destruct B as (sign & c & b & -> & S & Dc).
  assert (Rd : read_number lib (sign ++ c :: b) = if plain_digits (c :: b) then if Nat.leb (length (c :: b)) (jl_digits lib) then
      Some (JInt (match sign with nil => Z.of_N (undec (c :: b)) | _ => - Z.of_N (undec (c :: b)) end)%Z) else None
    else if forallb is_digit (c :: b) then None else match jl_read_float lib (sign ++ c :: b) with Some x => Some (float_json x) | None => None end).
  { unfold read_number. destruct S as [->| ->]; cbn [app]; [rewrite (not_minus c Dc)|change (45 =? 45) with true]; reflexivity. }
  rewrite Rd in R. destruct (plain_digits (c :: b)) eqn:P.
  - destruct (Nat.leb (length (c :: b)) (jl_digits lib)) eqn:L; [|discriminate]. injection R as <-. apply plain_digits_spec in P. apply Nat.leb_le in L.
    apply V_int. exists (c :: b). split; [assumption|]. split; [assumption|]. destruct S as [->| ->]; [left|right]; split; reflexivity.
  - destruct (forallb is_digit (c :: b)) eqn:A; [discriminate|].
    destruct (jl_read_float lib (sign ++ c :: b)) as [x|] eqn:Fl; [|discriminate]. injection R as <-.
    enough (Ft : float_text (sign ++ c :: b)) by (destruct x as [[n p]|k]; [apply V_float|apply V_special]; assumption). split.
    + rewrite forallb_forall in F. apply Forall_forall. intros y I. apply num_char_spec. auto.
    + exists sign, (c :: b), c, b. split; [reflexivity|]. split; [assumption|]. split; [reflexivity|]. split; [apply is_digit_spec, Dc|].
      intros Q. apply all_digits in Q. congruence.
Qed.

(** *** Words *)

Lemma strip_sound : forall p s r, strip_prefix p s = Some r -> s = p ++ r.
Proof.
  induction p as [|a p IH]; intros [|b s] r H; cbn [strip_prefix] in H; try discriminate; try (injection H as <-; reflexivity).
  destruct (N.eqb_spec a b) as [->|]; [|discriminate]. rewrite (IH _ _ H). reflexivity.
Qed.
Lemma word_sound : forall ws s j r, read_word ws s = Some (j, r) -> exists w, In (w, j) ws /\ s = w ++ r.
Proof.
  induction ws as [|[w j'] ws IH]; intros s j r H; cbn [read_word] in H; [discriminate|]. destruct (strip_prefix w s) as [s'|] eqn:E.
  - injection H as -> ->. exists w. split; [left; reflexivity|apply strip_sound, E].
  - destruct (IH _ _ _ H) as (w' & I & Q). exists w'. split; [right; exact I|exact Q].
Qed.
Lemma words_text : forall lib d w j, In (w, j) WORDS -> value_text lib d j w.
Proof.
  intros lib d w j I. unfold WORDS in I. cbn [In] in I.
  repeat (destruct I as [I|I]; [injection I as <- <-; constructor|]). contradiction.
Qed.

(** *** Soundness *)

Lemma value_S : forall lib n' d s, value lib (S n') d s =
    match s with
    | nil => None
    | c :: r =>
      if c =? QUOTE then match chars r with Some (x, r') => Some (JStr x, r') | None => None end
      else if c =? 91 then
        match d with
        | O => None
        | S d' =>
          match skip_ws r with
          | nil => None
          | c1 :: r1 =>
            if c1 =? 93 then Some (JList nil, r1)
            else match elements lib n' d' (c1 :: r1) with Some (l, r') => Some (JList l, r') | None => None end
          end
        end
      else if c =? 123 then
        match d with
        | O => None
        | S d' =>
          match skip_ws r with
          | nil => None
          | c1 :: r1 =>
            if c1 =? 125 then Some (JObj nil, r1)
            else match members lib n' d' (c1 :: r1) with Some (l, r') => Some (JObj (to_dict l), r') | None => None end
          end
        end
      else if num_start s then
        let (t, r') := span_num s in
        match read_number lib t with Some j => Some (j, r') | None => None end
      else read_word WORDS s
    end.
Proof. reflexivity. Qed.
Lemma elements_S : forall lib n' d s, elements lib (S n') d s =
    match value lib n' d s with
    | None => None
    | Some (j, r) =>
      match skip_ws r with
      | nil => None
      | c :: r1 =>
        if c =? 93 then Some ([j], r1)
        else if c =? COMMA then
          match elements lib n' d (skip_ws r1) with Some (l, r') => Some (j :: l, r') | None => None end
        else None
      end
    end.
Proof. reflexivity. Qed.
Lemma members_S : forall lib n' d s, members lib (S n') d s =
    match s with
    | nil => None
    | q :: r =>
      if q =? QUOTE then
        match chars r with
        | None => None
        | Some (k, r0) =>
          match skip_ws r0 with
          | nil => None
          | c0 :: r1 =>
            if c0 =? COLON then
              match value lib n' d (skip_ws r1) with
              | None => None
              | Some (j, r2) =>
                match skip_ws r2 with
                | nil => None
                | c :: r3 =>
                  if c =? 125 then Some ([(k, j)], r3)
                  else if c =? COMMA then
                    match members lib n' d (skip_ws r3) with Some (l, r') => Some ((k, j) :: l, r') | None => None end
                  else None
                end
              end
            else None
          end
        end
      else None
    end.
Proof. reflexivity. Qed.

Lemma sound : forall lib n,
  (forall d s j r, value lib n d s = Some (j, r) -> exists t, s = t ++ r /\ value_text lib d j t) /\
  (forall d s l r, elements lib n d s = Some (l, r) -> exists t, s = t ++ 93 :: r /\ elements_text lib d l t) /\
  (forall d s l r, members lib n d s = Some (l, r) -> exists t, s = t ++ 125 :: r /\ members_text lib d l t).
Proof.
  intros lib. induction n as [|n (IHv & IHe & IHm)]; [repeat split; discriminate|]. split; [|split].
  - intros d s j r H. rewrite value_S in H. destruct s as [|c s]; [discriminate|].
    destruct (N.eqb_spec c QUOTE) as [->|N1].
    { destruct (chars s) as [[x r']|] eqn:C; [|discriminate]. injection H as <- <-. apply chars_sound with (n := length s) in C; [|lia].
      destruct C as (ts & F & ->). exists ([34] ++ concat ts ++ [34]). split; [cbn; rewrite <- app_assoc; reflexivity|]. apply V_string. exists ts. auto. }
    destruct (N.eqb_spec c 91) as [->|N2].
    { destruct d as [|d]; [discriminate|]. destruct (skip_split s) as (w & B & E & _). destruct (skip_ws s) as [|c1 r1]; [discriminate|].
      destruct (N.eqb_spec c1 93) as [->|N3].
      - injection H as <- <-. exists (s2l "[" ++ w ++ s2l "]"). split; [rewrite E; change (s2l "[") with [91]; change (s2l "]") with [93]; cbn [app]; rewrite <- app_assoc; reflexivity|].
        apply V_empty_list. assumption.
      - destruct (elements lib n d (c1 :: r1)) as [[l r']|] eqn:El; [|discriminate]. injection H as <- <-. destruct (IHe _ _ _ _ El) as (t & Q & T).
        exists (s2l "[" ++ w ++ t ++ s2l "]"). split; [|apply V_list; assumption]. rewrite E, Q. change (s2l "[") with [91]; change (s2l "]") with [93]. cbn [app]. rewrite <- !app_assoc. reflexivity. }
    destruct (N.eqb_spec c 123) as [->|N3].
    { destruct d as [|d]; [discriminate|]. destruct (skip_split s) as (w & B & E & _). destruct (skip_ws s) as [|c1 r1]; [discriminate|].
      destruct (N.eqb_spec c1 125) as [->|N4].
      - injection H as <- <-. exists (s2l "{" ++ w ++ s2l "}"). split; [rewrite E; change (s2l "{") with [123]; change (s2l "}") with [125]; cbn [app]; rewrite <- app_assoc; reflexivity|].
        apply V_empty_object. assumption.
      - destruct (members lib n d (c1 :: r1)) as [[l r']|] eqn:El; [|discriminate]. injection H as <- <-. destruct (IHm _ _ _ _ El) as (t & Q & T).
        exists (s2l "{" ++ w ++ t ++ s2l "}"). split; [|apply V_object with (l := l); [assumption|assumption|apply to_dict_of]]. rewrite E, Q. change (s2l "{") with [123]; change (s2l "}") with [125]. cbn [app]. rewrite <- !app_assoc. reflexivity. }
    destruct (num_start (c :: s)) eqn:St.
    { destruct (span_num (c :: s)) as [t r'] eqn:Sp. destruct (read_number lib t) as [j'|] eqn:R; [|discriminate]. injection H as <- <-.
      exists t. eapply number_sound; eassumption. }
    apply word_sound in H. destruct H as (w & I & E). exists w. split; [assumption|apply words_text, I].
  - intros d s l r H. rewrite elements_S in H. destruct (value lib n d s) as [[j r0]|] eqn:V; [|discriminate]. destruct (IHv _ _ _ _ V) as (t & -> & T).
    destruct (skip_split r0) as (w & B & E & _). destruct (skip_ws r0) as [|c r1]; [discriminate|]. destruct (N.eqb_spec c 93) as [->|N1].
    + injection H as <- <-. exists (t ++ w). split; [rewrite E, <- app_assoc; reflexivity|constructor; assumption].
    + destruct (N.eqb_spec c COMMA) as [->|N2]; [|discriminate]. destruct (skip_split r1) as (w' & B' & E' & _).
      destruct (elements lib n d (skip_ws r1)) as [[l' r']|] eqn:El; [|discriminate]. injection H as <- <-. destruct (IHe _ _ _ _ El) as (t' & Q & T').
      exists (t ++ w ++ s2l "," ++ w' ++ t'). split; [|constructor; assumption]. rewrite E, E', Q. change (s2l ",") with [44]. cbn [app]. rewrite <- !app_assoc. cbn [app]. rewrite <- !app_assoc. reflexivity.
  - intros d s l r H. rewrite members_S in H. destruct s as [|q s]; [discriminate|]. destruct (N.eqb_spec q QUOTE) as [->|N0]; [|discriminate].
    destruct (chars s) as [[k r0]|] eqn:C; [|discriminate]. apply chars_sound with (n := length s) in C; [|lia]. destruct C as (ts & F & ->).
    assert (K : string_text k ([34] ++ concat ts ++ [34])) by (exists ts; auto).
    destruct (skip_split r0) as (w1 & B1 & E1 & _). destruct (skip_ws r0) as [|c0 r1]; [discriminate|]. destruct (N.eqb_spec c0 COLON) as [->|]; [|discriminate].
    destruct (skip_split r1) as (w2 & B2 & E2 & _). destruct (value lib n d (skip_ws r1)) as [[j r2]|] eqn:V; [|discriminate]. destruct (IHv _ _ _ _ V) as (t & Et & T).
    destruct (skip_split r2) as (w & B & E & _). destruct (skip_ws r2) as [|c r3]; [discriminate|]. destruct (N.eqb_spec c 125) as [->|N1].
    + injection H as <- <-. exists (([34] ++ concat ts ++ [34]) ++ w1 ++ s2l ":" ++ w2 ++ t ++ w). split; [|constructor; assumption].
      rewrite E1, E2, Et, E. change (s2l ":") with [58]. cbn [app]. rewrite <- !app_assoc. cbn [app]. rewrite <- !app_assoc. reflexivity.
    + destruct (N.eqb_spec c COMMA) as [->|N2]; [|discriminate]. destruct (skip_split r3) as (w' & B' & E' & _).
      destruct (members lib n d (skip_ws r3)) as [[l' r']|] eqn:El; [|discriminate]. injection H as <- <-. destruct (IHm _ _ _ _ El) as (t' & Q & T').
      exists (([34] ++ concat ts ++ [34]) ++ w1 ++ s2l ":" ++ w2 ++ t ++ w ++ s2l "," ++ w' ++ t'). split; [|constructor; assumption].
      rewrite E1, E2, Et, E, E', Q. change (s2l ":") with [58]. change (s2l ",") with [44]. cbn [app]. rewrite <- !app_assoc. cbn [app]. rewrite <- !app_assoc. cbn [app]. rewrite <- !app_assoc. reflexivity.
Qed.

(** *** Completeness *)

Definition head_ok (t : str) : Prop := exists c r, t = c :: r /\ is_ws c = false /\ c <> 93 /\ c <> 125.
Lemma digit_head : forall c, is_digit c = true -> is_ws c = false /\ c <> 93 /\ c <> 125.
Proof. intros c D. apply is_digit_spec in D. split; [destruct (is_ws c) eqn:E; [apply is_ws_spec in E; cbn [In] in E; lia|reflexivity]|lia]. Qed.
Lemma string_head : forall s t, string_text s t -> exists r, t = 34 :: r.
Proof. intros s t (ts & _ & ->). cbn. eauto. Qed.
Lemma value_head : forall lib d j t, value_text lib d j t -> head_ok t.
Proof.
  intros lib d j t H. destruct H; try (eexists _, _; split; [cbn; reflexivity|split; [reflexivity|split; discriminate]]).
  - destruct H as (b & D & _ & [(-> & _)|(-> & _)]).
    + destruct (digits_start b D) as (c & r & -> & Dc & _). exists c, r. split; [reflexivity|apply digit_head, Dc].
    + exists 45, b. split; [reflexivity|split; [reflexivity|split; discriminate]].
  - destruct H as (_ & sign & b & c & r & -> & [->| ->] & -> & Dc & _).
    + exists c, r. split; [reflexivity|apply digit_head, is_digit_spec, Dc].
    + exists 45, (c :: r). split; [reflexivity|split; [reflexivity|split; discriminate]].
  - destruct H as (_ & sign & b & c & r & -> & [->| ->] & -> & Dc & _).
    + exists c, r. split; [reflexivity|apply digit_head, is_digit_spec, Dc].
    + exists 45, (c :: r). split; [reflexivity|split; [reflexivity|split; discriminate]].
  - destruct (string_head _ _ H) as (r & ->). exists 34, r. split; [reflexivity|split; [reflexivity|split; discriminate]].
Qed.
Lemma elements_head : forall lib d l t, elements_text lib d l t -> head_ok t.
Proof.
  intros lib d l t [d' j t' w V B|d' j l' t' w w' t'' V B B' E]; destruct (value_head _ _ _ _ V) as (c & r & -> & H); [exists c, (r ++ w)|exists c, (r ++ w ++ s2l "," ++ w' ++ t'')]; split; try reflexivity; exact H.
Qed.
Lemma members_head : forall lib d l t, members_text lib d l t -> exists r, t = 34 :: r.
Proof. intros lib d l t H. destruct H as [d k j tk t w1 w2 w K|d k j l tk t w1 w2 w w' t' K]; destruct (string_head _ _ K) as (r & ->); cbn; eauto. Qed.

Lemma delim_blank : forall w c r, blank w -> num_char c = false -> delim (w ++ c :: r).
Proof.
  intros [|x w] c r B N; [exact N|]. inversion B as [|? ? I]; subst. cbn [In] in I. cbn [app delim].
  destruct I as [<-|[<-|[<-|[<-|[]]]]]; reflexivity.
Qed.
Lemma delim_only : forall w, blank w -> delim w.
Proof. intros [|x w] B; [exact Logic.I|]. inversion B as [|? ? I]; subst. cbn [In] in I. cbn [delim]. destruct I as [<-|[<-|[<-|[<-|[]]]]]; reflexivity. Qed.

Lemma value_number : forall lib n d t r j, num_start t = true -> forallb num_char t = true -> read_number lib t = Some j -> delim r ->
  value lib (S n) d (t ++ r) = Some (j, r).
Proof.
  intros lib n d t r j St F R D. destruct t as [|c t]; [discriminate|].
  assert (C : c <> 34 /\ c <> 91 /\ c <> 123).
  { cbn [num_start] in St. apply orb_true_iff in St. destruct St as [St|St]; [apply is_digit_spec in St|apply andb_true_iff in St; destruct St as [St _]; apply N.eqb_eq in St]; lia. }
  destruct C as (C1 & C2 & C3). cbn [app]. rewrite ?value_S, ?elements_S, ?members_S. rewrite (proj2 (N.eqb_neq c QUOTE)), (proj2 (N.eqb_neq c 91)), (proj2 (N.eqb_neq c 123)) by assumption.
  assert (St' : num_start (c :: t ++ r) = true).
  { cbn [num_start] in *. apply orb_true_iff in St. apply orb_true_iff. destruct St as [St|St]; [auto|]. right. apply andb_true_iff in St. destruct St as [E St]. rewrite E. destruct t; [discriminate|exact St]. }
  rewrite St'. change (c :: t ++ r) with ((c :: t) ++ r). rewrite (span_all (c :: t) r F D). rewrite R. reflexivity.
Qed.

Lemma complete : forall lib,
  (forall d j t, value_text lib d j t -> forall r n, delim r -> (2 * length t <= n)%nat -> value lib n d (t ++ r) = Some (j, r)) /\
  (forall d l t, elements_text lib d l t -> forall r n, (2 * length t + 1 <= n)%nat -> elements lib n d (t ++ 93 :: r) = Some (l, r)) /\
  (forall d l t, members_text lib d l t -> forall r n, (2 * length t + 1 <= n)%nat -> members lib n d (t ++ 125 :: r) = Some (l, r)).
Proof.
  intros lib. apply texts_mut.
  1-6: intros d r [|n] D L; [cbn in L; lia|reflexivity].
  - intros d z t H r n D L. destruct (int_complete _ _ _ H) as (St & F & R). destruct t as [|c t]; [discriminate|]. cbn [length] in L. destruct n as [|n]; [lia|]. apply value_number; assumption.
  - intros d x p t Ft Rd r n D L. destruct (float_complete _ _ _ Ft Rd) as (St & F & R). destruct t as [|c t]; [discriminate|]. cbn [length] in L. destruct n as [|n]; [lia|]. apply value_number; assumption.
  - intros d k t Ft Rd r n D L. destruct (float_complete _ _ _ Ft Rd) as (St & F & R). destruct t as [|c t]; [discriminate|]. cbn [length] in L. destruct n as [|n]; [lia|]. apply value_number; assumption.
  - intros d s t (ts & F & ->) r n D L. destruct n as [|n]; [cbn in L; lia|]. cbn [app]. rewrite ?value_S, ?elements_S, ?members_S. change (34 =? QUOTE) with true. cbv iota. rewrite <- app_assoc. cbn [app].
    rewrite (chars_complete _ _ _ F). reflexivity.
  - intros d w B r n D L. destruct n as [|n]; [cbn in L; lia|]. change (s2l "[") with [91]. change (s2l "]") with [93]. cbn [app]. rewrite ?value_S, ?elements_S, ?members_S. change (91 =? QUOTE) with false. change (91 =? 91) with true. cbv iota.
    rewrite <- app_assoc. rewrite skip_blank by (assumption || reflexivity). reflexivity.
  - intros d l w t B E IH r n D L. change (s2l "[") with [91] in *. change (s2l "]") with [93] in *. cbn [app length] in L. rewrite ?app_length in L. cbn [length] in L.
    destruct n as [|n]; [lia|]. cbn [app]. rewrite ?value_S, ?elements_S, ?members_S. change (91 =? QUOTE) with false. change (91 =? 91) with true. cbv iota.
    destruct (elements_head _ _ _ _ E) as (c & t' & Et & Hw & H1 & _). rewrite <- !app_assoc. cbn [app].
    rewrite skip_blank; [|assumption|subst t; exact Hw].
    specialize (IH r n). assert (Q : elements lib n d (t ++ 93 :: r) = Some (l, r)) by (apply IH; lia). subst t. cbn [app] in *. rewrite (proj2 (N.eqb_neq c 93)) by assumption. rewrite Q. reflexivity.
  - intros d w B r n D L. destruct n as [|n]; [cbn in L; lia|]. change (s2l "{") with [123]. change (s2l "}") with [125]. cbn [app]. rewrite ?value_S, ?elements_S, ?members_S. change (123 =? QUOTE) with false. change (123 =? 91) with false. change (123 =? 123) with true. cbv iota.
    rewrite <- app_assoc. rewrite skip_blank by (assumption || reflexivity). reflexivity.
  - intros d l o w t B E IH Do r n D L. apply dict_of_det in Do. subst o. change (s2l "{") with [123] in *. change (s2l "}") with [125] in *. cbn [app length] in L. rewrite ?app_length in L. cbn [length] in L.
    destruct n as [|n]; [lia|]. cbn [app]. rewrite ?value_S, ?elements_S, ?members_S. change (123 =? QUOTE) with false. change (123 =? 91) with false. change (123 =? 123) with true. cbv iota.
    destruct (members_head _ _ _ _ E) as (t' & Et). rewrite <- !app_assoc. cbn [app].
    rewrite skip_blank; [|assumption|subst t; reflexivity].
    assert (Q : members lib n d (t ++ 125 :: r) = Some (l, r)) by (apply IH; lia). subst t. cbn [app] in *. change (34 =? 125) with false. cbv iota. rewrite Q. reflexivity.
  - intros d j t w V IH B r n L. destruct (value_head _ _ _ _ V) as (c0 & t0 & Et & _). rewrite ?app_length in L. destruct n as [|n]; [lia|]. rewrite elements_S. rewrite <- app_assoc.
    rewrite IH; [|apply delim_blank; [assumption|reflexivity]|lia]. rewrite skip_blank by (assumption || reflexivity). reflexivity.
  - intros d j l t w w' t' V IH B B' E IHe r n L. change (s2l ",") with [44] in *. rewrite ?app_length in L. cbn [length] in L. rewrite ?app_length in L. destruct n as [|n]; [lia|]. rewrite elements_S.
    rewrite <- app_assoc. rewrite IH; [|rewrite <- app_assoc; apply delim_blank; [assumption|reflexivity]|lia].
    rewrite <- app_assoc. cbn [app]. rewrite skip_blank by (assumption || reflexivity). change (44 =? 93) with false. change (44 =? COMMA) with true. cbv iota.
    rewrite <- app_assoc. destruct (elements_head _ _ _ _ E) as (c & t0 & Et & Hw & _). rewrite skip_blank; [|assumption|subst t'; exact Hw].
    rewrite IHe by lia. reflexivity.
  - intros d k j tk t w1 w2 w K B1 B2 V IH B r n L. change (s2l ":") with [58] in *. rewrite ?app_length in L. cbn [length] in L. rewrite ?app_length in L. destruct n as [|n]; [lia|].
    destruct K as (ts & F & ->). cbn [app]. rewrite ?value_S, ?elements_S, ?members_S. change (34 =? QUOTE) with true. cbv iota. rewrite <- !app_assoc. cbn [app]. rewrite <- !app_assoc. rewrite (chars_complete _ _ _ F).
    rewrite skip_blank by (assumption || reflexivity). change (58 =? COLON) with true. cbv iota.
    destruct (value_head _ _ _ _ V) as (c & t0 & Et & Hw & _). rewrite skip_blank; [|assumption|subst t; exact Hw].
    rewrite IH; [|apply delim_blank; [assumption|reflexivity]|lia]. rewrite skip_blank by (assumption || reflexivity). reflexivity.
  - intros d k j l tk t w1 w2 w w' t' K B1 B2 V IH B B' M IHm r n L. change (s2l ":") with [58] in *. change (s2l ",") with [44] in *. rewrite ?app_length in L. cbn [length] in L. rewrite ?app_length in L. cbn [length] in L. rewrite ?app_length in L.
    destruct n as [|n]; [lia|].
    destruct K as (ts & F & ->). cbn [app]. rewrite ?value_S, ?elements_S, ?members_S. change (34 =? QUOTE) with true. cbv iota. rewrite <- !app_assoc. cbn [app]. rewrite <- !app_assoc. rewrite (chars_complete _ _ _ F).
    rewrite skip_blank by (assumption || reflexivity). change (58 =? COLON) with true. cbv iota.
    destruct (value_head _ _ _ _ V) as (c & t0 & Et & Hw & _). rewrite skip_blank; [|assumption|subst t; exact Hw].
    cbn [app]. rewrite IH; [|apply delim_blank; [assumption|reflexivity]|lia]. rewrite skip_blank by (assumption || reflexivity).
    change (44 =? 125) with false. change (44 =? COMMA) with true. cbv iota. rewrite <- app_assoc.
    destruct (members_head _ _ _ _ M) as (t1 & Em). rewrite skip_blank; [|assumption|subst t'; reflexivity]. rewrite IHm by lia. reflexivity.
Qed.

(** ** The reader *)

Theorem read_iff : forall lib s j, read lib s = Some j <-> json_text lib j s.
Proof.
  intros lib s j. unfold read, json_text. split.
  - destruct (value lib (S (2 * length s)) (jl_depth lib) (skip_ws s)) as [[j' r]|] eqn:V; [|discriminate].
    destruct (skip_ws r) eqn:E; [|discriminate]. intros [= ->]. destruct (proj1 (sound lib _) _ _ _ _ V) as (t & Q & T).
    destruct (skip_split s) as (w & B & Es & _). destruct (skip_split r) as (w' & B' & Er & _). rewrite E, app_nil_r in Er. subst w'.
    exists w, t, r. split; [congruence|]. auto.
  - intros (w & t & w' & -> & B & B' & V). destruct (value_head _ _ _ _ V) as (c & t0 & Et & Hw & _).
    rewrite skip_blank; [|assumption|subst t; exact Hw].
    rewrite (proj1 (complete lib) _ _ _ V); [|apply delim_only, B'|rewrite !app_length; lia]. rewrite (skip_all _ B'). reflexivity.
Qed.
(** a text has one value *)
Corollary unambiguous : forall lib s j j', json_text lib j s -> json_text lib j' s -> j = j'.
Proof. intros lib s j j' H H'. apply read_iff in H, H'. congruence. Qed.

(** ** What is written is read back *)

(** values that can be written: integers the reader accepts, floats it reads back, no NaN or infinities, and
    objects that are dicts *)
Inductive writable (lib : JsonLib) : json -> Prop :=
| W_null : writable lib JNull
| W_bool : forall b, writable lib (JBool b)
| W_int : forall z, (length (dec (Z.abs_N z)) <= jl_digits lib)%nat -> writable lib (JInt z)
| W_float : forall n d, float_text (jl_write_float lib n d) -> jl_read_float lib (jl_write_float lib n d) = Some (inl (n, d)) ->
    writable lib (JFloat n d)
| W_str : forall s, writable lib (JStr s)
| W_list : forall l, Forall (writable lib) l -> writable lib (JList l)
| W_obj : forall o, NoDup (map fst o) -> Forall (fun kv => writable lib (snd kv)) o -> writable lib (JObj o).

Fixpoint depth (j : json) : nat :=
  match j with
  | JList l => S (list_max (map depth l))
  | JObj o => S (list_max (map (fun kv => depth (snd kv)) o))
  | _ => O
  end.

Section JsonInd.
Variable P : json -> Prop.
Hypothesis Hnull : P JNull.
Hypothesis Hbool : forall b, P (JBool b).
Hypothesis Hint : forall z, P (JInt z).
Hypothesis Hfloat : forall n d, P (JFloat n d).
Hypothesis Hspecial : forall k, P (JSpecial k).
Hypothesis Hstr : forall s, P (JStr s).
Hypothesis Hlist : forall l, Forall P l -> P (JList l).
Hypothesis Hobj : forall o, Forall (fun kv => P (snd kv)) o -> P (JObj o).
Fixpoint json_nested (j : json) : P j :=
  match j with
  | JNull => Hnull
  | JBool b => Hbool b
  | JInt z => Hint z
  | JFloat n d => Hfloat n d
  | JSpecial k => Hspecial k
  | JStr s => Hstr s
  | JList l => Hlist l ((fix go l := match l return Forall P l with nil => Forall_nil _ | x :: r => Forall_cons _ (json_nested x) (go r) end) l)
  | JObj o => Hobj o ((fix go o := match o return Forall (fun kv => P (snd kv)) o with nil => Forall_nil _ | kv :: r => Forall_cons _ (json_nested (snd kv)) (go r) end) o)
  end.
End JsonInd.

Lemma list_max_in : forall l n x, (list_max l <= n)%nat -> In x l -> (x <= n)%nat.
Proof. intros l n x H I. apply list_max_le in H. exact (proj1 (Forall_forall _ _) H x I). Qed.

Lemma hex_digit_of : forall v, v < 16 -> digit_of (hex_digit v) v.
Proof. intros v L. unfold hex_digit, digit_of. destruct (N.ltb_spec v 10); lia. Qed.
Lemma write_char_text : forall c, char_text c (write_char c).
Proof.
  intros c. unfold write_char.
  repeat match goal with |- context [if ?x =? ?y then _ else _] => destruct (N.eqb_spec x y); [subst; apply Ch_escape; cbn [In]; unfold QUOTE, BACKSLASH; tauto|] end.
  destruct (N.ltb_spec c 32).
  - change [BACKSLASH; 117; 48; 48; hex_digit (c / 16); hex_digit (c mod 16)] with ([92; 117] ++ [48; 48; hex_digit (c / 16); hex_digit (c mod 16)]).
    apply Ch_unit; [|lia]. exists 48, 48, (hex_digit (c / 16)), (hex_digit (c mod 16)), 0, 0, (c / 16), (c mod 16).
    split; [reflexivity|]. split; [left; lia|]. split; [left; lia|]. split; [apply hex_digit_of; apply N.div_lt_upper_bound; lia|].
    split; [apply hex_digit_of; apply N.mod_lt; lia|]. pose proof (N.div_mod c 16). lia.
  - apply Ch_plain; assumption.
Qed.
Lemma write_str_text : forall s, string_text s (write_str s).
Proof.
  intros s. exists (map write_char s). split.
  - induction s; cbn [map]; constructor; auto using write_char_text.
  - unfold write_str. rewrite flat_map_concat_map. reflexivity.
Qed.

Lemma dec_aux_head : forall fuel n acc, n <> 0 -> n < 2 ^ N.of_nat fuel -> exists c r, dec_aux fuel n acc = c :: r /\ c <> 48.
Proof.
  induction fuel as [|f IH]; intros n acc Nz L; [cbn in L; lia|]. cbn [dec_aux]. destruct (N.ltb_spec n 10).
  - eexists _, _. split; [reflexivity|]. rewrite N.mod_small by assumption. lia.
  - apply IH.
    + intros Z. apply N.div_small_iff in Z; lia.
    + rewrite Nat2N.inj_succ, N.pow_succ_r' in L. pose proof (N.div_lt_upper_bound n 10 (2 ^ N.of_nat f)). lia.
Qed.
Lemma dec_text : forall n, digits (dec n).
Proof.
  intros n. split; [apply dec_nonempty|]. split.
  - apply Forall_forall. intros c I. pose proof (proj1 (forallb_forall _ _) (dec_digits n) c I) as Q. apply is_digit_spec in Q. exact Q.
  - destruct n as [|p]; [reflexivity|].
    destruct (dec_aux_head (S (N.to_nat (N.log2 (N.pos p)))) (N.pos p) nil) as (c & r & Q & Nz); [discriminate| |].
    + rewrite Nat2N.inj_succ, N2Nat.id. apply N.log2_spec. lia.
    + unfold dec. rewrite Q. cbn [hd]. contradiction.
Qed.

Lemma write_elements : forall lib d l x, Forall (fun j => value_text lib d j (write lib j)) (x :: l) ->
  elements_text lib d (x :: l) (join_on COMMA (map (write lib) (x :: l))).
Proof.
  induction l as [|y l IH]; intros x F; inversion F as [|? ? Hx Hl]; subst.
  - cbn [map join_on]. rewrite <- (app_nil_r (write lib x)). apply E_last; [exact Hx|constructor].
  - specialize (IH y Hl).
    change (join_on COMMA (map (write lib) (x :: y :: l))) with (write lib x ++ nil ++ s2l "," ++ nil ++ join_on COMMA (map (write lib) (y :: l))).
    apply E_more; [exact Hx|constructor|constructor|exact IH].
Qed.
Lemma write_members : forall lib d l x, Forall (fun kv => value_text lib d (snd kv) (write lib (snd kv))) (x :: l) ->
  members_text lib d (x :: l) (join_on COMMA (map (fun kv => write_str (fst kv) ++ COLON :: write lib (snd kv)) (x :: l))).
Proof.
  induction l as [|y l IH]; intros [k j] F; inversion F as [|? ? Hx Hl]; subst; cbn [snd] in Hx.
  - cbn [map join_on fst snd]. rewrite <- (app_nil_r (write lib j)).
    change (write_str k ++ COLON :: write lib j ++ nil) with (write_str k ++ nil ++ s2l ":" ++ nil ++ write lib j ++ nil).
    apply M_last; try apply Forall_nil; [apply write_str_text|exact Hx].
  - specialize (IH y Hl). set (f := fun kv : str * json => write_str (fst kv) ++ COLON :: write lib (snd kv)) in *.
    assert (Q : join_on COMMA (map f ((k, j) :: y :: l)) = write_str k ++ nil ++ s2l ":" ++ nil ++ write lib j ++ nil ++ s2l "," ++ nil ++ join_on COMMA (map f (y :: l))).
    { change (join_on COMMA (map f ((k, j) :: y :: l))) with ((write_str k ++ COLON :: write lib j) ++ COMMA :: join_on COMMA (map f (y :: l))).
      rewrite <- app_assoc. reflexivity. }
    rewrite Q. apply M_more; try apply Forall_nil; [apply write_str_text|exact Hx|exact IH].
Qed.

Lemma write_value : forall lib j, writable lib j -> forall d, (depth j <= d)%nat -> value_text lib d j (write lib j).
Proof.
  intros lib. induction j as [|b|z|n p|k|s|l IH|o IH] using json_nested; intros W d L; inversion W; subst.
  - apply V_null.
  - destruct b; [apply V_true|apply V_false].
  - apply V_int. exists (dec (Z.abs_N z)). split; [apply dec_text|]. split; [assumption|]. rewrite undec_dec.
    destruct z as [|p|p]; [left|left|right]; cbn [write dec_Z]; split; reflexivity.
  - apply V_float; assumption.
  - apply V_string, write_str_text.
  - cbn [depth] in L. destruct d as [|d]; [lia|]. cbn [write]. destruct l as [|x l].
    + change (s2l "[" ++ join_on COMMA (map (write lib) nil) ++ s2l "]") with (s2l "[" ++ nil ++ s2l "]"). apply V_empty_list. constructor.
    + change (s2l "[" ++ join_on COMMA (map (write lib) (x :: l)) ++ s2l "]") with (s2l "[" ++ nil ++ join_on COMMA (map (write lib) (x :: l)) ++ s2l "]").
      apply V_list; [constructor|]. apply write_elements. apply Forall_forall. intros j I.
      refine (proj1 (Forall_forall _ _) IH j I _ d _); [exact (proj1 (Forall_forall _ _) H0 j I)|].
      apply (list_max_in (map depth (x :: l))); [lia|apply in_map, I].
  - cbn [depth] in L. destruct d as [|d]; [lia|]. cbn [write]. destruct o as [|x o].
    + change (s2l "{" ++ join_on COMMA (map (fun kv => write_str (fst kv) ++ COLON :: write lib (snd kv)) nil) ++ s2l "}") with (s2l "{" ++ nil ++ s2l "}"). apply V_empty_object. constructor.
    + change (s2l "{" ++ join_on COMMA (map (fun kv => write_str (fst kv) ++ COLON :: write lib (snd kv)) (x :: o)) ++ s2l "}")
        with (s2l "{" ++ nil ++ join_on COMMA (map (fun kv => write_str (fst kv) ++ COLON :: write lib (snd kv)) (x :: o)) ++ s2l "}").
      apply V_object with (l := x :: o); [constructor| |rewrite <- (to_dict_nodup (x :: o)) at 2 by assumption; apply to_dict_of]. apply write_members. apply Forall_forall. intros kv I.
      refine (proj1 (Forall_forall _ _) IH kv I _ d _); [exact (proj1 (Forall_forall _ _) H1 kv I)|].
      apply (list_max_in (map (fun kv => depth (snd kv)) (x :: o))); [lia|]. exact (in_map (fun kv => depth (snd kv)) _ _ I).
Qed.

Theorem read_write : forall lib j, writable lib j -> (depth j <= jl_depth lib)%nat -> read lib (write lib j) = Some j.
Proof.
  intros lib j W L. apply read_iff. exists nil, (write lib j), nil. rewrite app_nil_r. split; [reflexivity|].
  split; [apply Forall_nil|]. split; [apply Forall_nil|]. apply write_value; assumption.
Qed.
