(** Python [str] operations used by the checkpoint parser and elsewhere. *)
From Verif Require Import Base Codec.
Local Open Scope N_scope.

(** [str.isspace()] for one character, also the class [\s] of [re] on text. *)
Definition is_space (c : N) : bool :=
  ((9 <=? c) && (c <=? 13)) || ((28 <=? c) && (c <=? 32)) || (c =? 133) || (c =? 160) ||
  (c =? 5760) || ((8192 <=? c) && (c <=? 8202)) || (c =? 8232) || (c =? 8233) ||
  (c =? 8239) || (c =? 8287) || (c =? 12288).

(** [s.lstrip()], [s.rstrip()], [s.strip()] *)
Fixpoint lstrip (s : str) : str :=
  match s with
  | nil => nil
  | c :: r => if is_space c then lstrip r else s
  end.
Definition rstrip (s : str) : str := rev (lstrip (rev s)).
Definition strip (s : str) : str := rstrip (lstrip s).

(** [s.split(sep)] for a one-character separator: never empty *)
Fixpoint split_on (sep : N) (s : str) : list str :=
  match s with
  | nil => [nil]
  | c :: r => if c =? sep then nil :: split_on sep r
              else match split_on sep r with
                   | nil => [[c]]
                   | p :: ps => (c :: p) :: ps
                   end
  end.

(** ** [int(s)] for a [str], base 10 (CPython 3.11+) *)

(** C's [Py_ISSPACE] *)
Definition c_space (c : N) : bool := ((9 <=? c) && (c <=? 13)) || (c =? 32).

Section Int.
(** [Py_UNICODE_TODECIMAL] of a non-ASCII character *)
Variable udecimal : N -> option N.
(** its result is below 10, and no ASCII character other than the ten digits has one *)
Definition decimal_of (c : N) : option N :=
  if c <? 128 then None else match udecimal c with Some d => if d <? 10 then Some d else None | None => None end.

(** [_PyUnicode_TransformDecimalAndSpaceToASCII] *)
Fixpoint to_ascii_decimal (s : str) : str :=
  match s with
  | nil => nil
  | c :: r =>
    if c <? 127 then c :: to_ascii_decimal r
    else if is_space c then 32 :: to_ascii_decimal r
    else match decimal_of c with
         | Some d => (48 + d) :: to_ascii_decimal r
         | None => [63]
         end
  end.

Fixpoint skip_c_space (s : str) : str :=
  match s with
  | nil => nil
  | c :: r => if c_space c then skip_c_space r else s
  end.

(** Digits with single underscores between them: (value, number of digits, rest).
    [prev_us] tells that the previous character was an underscore. *)
Fixpoint scan_digits (s : str) (acc : N) (n : nat) (prev_us : bool) : option (N * nat * str) :=
  match s with
  | nil => if prev_us then None else Some (acc, n, nil)
  | c :: r =>
    if is_digit c then scan_digits r (10 * acc + (c - 48)) (S n) false
    else if c =? 95 then (if prev_us then None else scan_digits r acc n true)
    else if prev_us then None else Some (acc, n, s)
  end.

(** Python's default [sys.int_info.default_max_str_digits]. *)
Definition max_str_digits : N := 4300.

Definition py_int (s : str) : option Z :=
  let s := if is_ascii s then s else to_ascii_decimal s in
  let s := skip_c_space s in
  let '(neg, s) :=
    match s with
    | c :: r => if c =? 43 then (false, r) else if c =? 45 then (true, r) else (false, s)
    | nil => (false, s)
    end in
  match s with
  | c :: _ =>
    if is_digit c then
      match scan_digits s 0 0%nat false with
      | Some (v, n, rest) =>
        match skip_c_space rest with
        | nil => if max_str_digits <? N.of_nat n then None
                 else Some (if neg then (- Z.of_N v)%Z else Z.of_N v)
        | _ => None
        end
      | None => None
      end
    else None
  | nil => None
  end.
End Int.

(** ** Lemmas *)

Lemma split_on_no_sep : forall sep s, forallb (fun c => negb (c =? sep)) s = true ->
  split_on sep s = [s].
Proof.
  induction s as [|c s IH]; intros H; [reflexivity|]. simpl in *.
  apply andb_true_iff in H. destruct H as [Hc Hs]. apply negb_true_iff in Hc.
  rewrite Hc, (IH Hs). reflexivity.
Qed.

Lemma split_on_app : forall sep s t, forallb (fun c => negb (c =? sep)) s = true ->
  split_on sep (s ++ sep :: t) = s :: split_on sep t.
Proof.
  induction s as [|c s IH]; intros t H; simpl in *.
  - rewrite N.eqb_refl. reflexivity.
  - apply andb_true_iff in H. destruct H as [Hc Hs]. apply negb_true_iff in Hc.
    rewrite Hc, (IH _ Hs). reflexivity.
Qed.

(** Joining the pieces with the separator gives the text back. *)
Fixpoint join_on (sep : N) (ps : list str) : str :=
  match ps with
  | nil => nil
  | [p] => p
  | p :: ps' => p ++ sep :: join_on sep ps'
  end.

Lemma split_on_nonempty : forall sep s, split_on sep s <> nil.
Proof.
  induction s as [|c s IH]; simpl; [discriminate|].
  destruct (c =? sep); [discriminate|]. destruct (split_on sep s); discriminate.
Qed.

Lemma join_split : forall sep s, join_on sep (split_on sep s) = s.
Proof.
  induction s as [|c s IH]; [reflexivity|]. cbn [split_on].
  pose proof (split_on_nonempty sep s) as NE.
  destruct (c =? sep) eqn:E.
  - apply N.eqb_eq in E. subst. destruct (split_on sep s) as [|p ps] eqn:Q; [contradiction|].
    cbn [join_on app]. f_equal. exact IH.
  - destruct (split_on sep s) as [|p ps] eqn:Q; [contradiction|].
    destruct ps as [|p2 ps]; cbn [join_on] in *.
    + cbn. f_equal. exact IH.
    + cbn [app]. f_equal. exact IH.
Qed.

Lemma split_on_pieces : forall sep s p, In p (split_on sep s) ->
  forallb (fun c => negb (c =? sep)) p = true.
Proof.
  induction s as [|c s IH]; intros p Hp; simpl in Hp.
  - destruct Hp as [<-|[]]. reflexivity.
  - destruct (c =? sep) eqn:E.
    + destruct Hp as [<-|Hp]; [reflexivity|auto].
    + pose proof (split_on_nonempty sep s). destruct (split_on sep s) as [|q qs]; [contradiction|].
      destruct Hp as [<-|Hp].
      * simpl. rewrite E. simpl. apply IH. left; reflexivity.
      * apply IH. right; assumption.
Qed.

(** [s.strip()] is a substring of [s], what is removed is white space. *)
Lemma lstrip_split : forall s, exists w, s = w ++ lstrip s /\ forallb is_space w = true.
Proof.
  induction s as [|c s IH]; simpl.
  - exists nil. auto.
  - destruct (is_space c) eqn:E.
    + destruct IH as (w & H1 & H2). exists (c :: w). split; [simpl; f_equal; exact H1|].
      simpl. rewrite E. exact H2.
    + exists nil. auto.
Qed.

Lemma forallb_rev : forall (A : Type) (P : A -> bool) l, forallb P (rev l) = forallb P l.
Proof.
  intros A P l. induction l as [|x l IH]; [reflexivity|]. simpl.
  rewrite forallb_app, IH. simpl. rewrite andb_true_r. apply andb_comm.
Qed.

Lemma strip_split : forall s, exists w1 w2, s = w1 ++ strip s ++ w2 /\
  forallb is_space w1 = true /\ forallb is_space w2 = true.
Proof.
  intros s. destruct (lstrip_split s) as (w1 & E1 & H1).
  destruct (lstrip_split (rev (lstrip s))) as (w2 & E2 & H2).
  exists w1, (rev w2). split; [|split].
  - rewrite E1 at 1. f_equal. unfold strip, rstrip.
    apply (f_equal (@rev N)) in E2. rewrite rev_involutive, rev_app_distr in E2. exact E2.
  - exact H1.
  - rewrite forallb_rev. exact H2.
Qed.

Lemma lstrip_id : forall c s, is_space c = false -> lstrip (c :: s) = c :: s.
Proof. intros c s H. simpl. rewrite H. reflexivity. Qed.

Lemma rstrip_ws : forall s c w, is_space c = false -> forallb is_space w = true ->
  rstrip (s ++ c :: w) = s ++ [c].
Proof.
  intros s c w Hc Hw. unfold rstrip.
  replace (s ++ c :: w) with ((s ++ [c]) ++ w) by (rewrite <- app_assoc; reflexivity).
  rewrite rev_app_distr, rev_app_distr. simpl.
  assert (forall v t, forallb is_space v = true -> lstrip (v ++ t) = lstrip t) as Q.
  { induction v as [|x v IH]; intros t Hv; [reflexivity|]. simpl in *.
    apply andb_true_iff in Hv. destruct Hv as [Hx Hv]. rewrite Hx. auto. }
  rewrite Q by (rewrite forallb_rev; assumption).
  rewrite lstrip_id by assumption. simpl. rewrite rev_involutive. reflexivity.
Qed.

(** Decimal numerals are read back. *)
Lemma scan_digits_all : forall s acc n, forallb is_digit s = true ->
  scan_digits s acc n false = Some (fold_left dval s acc, (n + length s)%nat, nil).
Proof.
  induction s as [|c s IH]; intros acc n H.
  - simpl. rewrite Nat.add_0_r. reflexivity.
  - cbn [forallb] in H. apply andb_true_iff in H. destruct H as [Hc Hs].
    cbn [scan_digits fold_left length]. rewrite Hc. rewrite (IH _ _ Hs).
    unfold dval at 2. do 2 f_equal. f_equal. lia.
Qed.

Lemma digits_ascii : forall s, forallb is_digit s = true -> is_ascii s = true.
Proof.
  intros s H. unfold is_ascii. rewrite forallb_forall in *. intros c Hc. specialize (H c Hc).
  unfold is_digit in H. lia.
Qed.

Lemma py_int_dec : forall ud n, N.of_nat (length (dec n)) <= max_str_digits ->
  py_int ud (dec n) = Some (Z.of_N n).
Proof.
  intros ud n Hlen. unfold py_int.
  pose proof (dec_digits n) as HD. pose proof (dec_nonempty n) as HN.
  rewrite (digits_ascii _ HD).
  assert (Hs : scan_digits (dec n) 0 0%nat false = Some (n, length (dec n), nil)).
  { rewrite (scan_digits_all _ _ _ HD). fold (undec (dec n)). rewrite undec_dec. reflexivity. }
  destruct (dec n) as [|c r] eqn:E; [contradiction|].
  cbn [forallb] in HD. apply andb_true_iff in HD. destruct HD as [Hc _].
  cbn [skip_c_space].
  assert (c_space c = false) as -> by (unfold c_space, is_digit in *; lia).
  assert (c =? 43 = false) as -> by (unfold is_digit in Hc; lia).
  assert (c =? 45 = false) as -> by (unfold is_digit in Hc; lia).
  rewrite Hc, Hs. cbn [skip_c_space].
  assert (max_str_digits <? N.of_nat (length (c :: r)) = false) as -> by lia.
  reflexivity.
Qed.
