(** Specification: the lines of the body of a signed note.  Python's [text.strip().split("\n")]
    (checkpoint.py) is described without computing it. *)
From Verif Require Import Base PyText.
Local Open Scope N_scope.

(** Only white space, in the sense of [str.isspace]. *)
Definition white (w : str) : Prop := forall c, In c w -> is_space c = true.

(** A text and its lines. *)
Inductive lines_are : str -> list str -> Prop :=
| la_one : forall l, ~ In 10 l -> lines_are l [l]
| la_more : forall l s ls, ~ In 10 l -> lines_are s ls -> lines_are (l ++ 10 :: s) (l :: ls).

(** The lines of a text without the white space at its ends. *)
Definition note_lines (text : str) (ls : list str) : Prop :=
  exists before core after, text = before ++ core ++ after /\ white before /\ white after /\
    (forall c r, core = c :: r -> is_space c = false) /\ (forall r c, core = r ++ [c] -> is_space c = false) /\
    lines_are core ls.

(** ** Lemmas *)

Lemma white_iff : forall w, white w <-> forallb is_space w = true.
Proof. intro w. unfold white. rewrite forallb_forall. reflexivity. Qed.

Lemma lstrip_white : forall w t, white w -> lstrip (w ++ t) = lstrip t.
Proof.
  induction w as [|c w IH]; intros t H; [reflexivity|]. cbn [app lstrip]. rewrite (H c (or_introl eq_refl)).
  apply IH. intros x I. apply H. right. exact I.
Qed.

Lemma lstrip_head : forall s c r, lstrip s = c :: r -> is_space c = false.
Proof.
  induction s as [|x s IH]; intros c r E; cbn [lstrip] in E; [discriminate|].
  destruct (is_space x) eqn:Q; [exact (IH _ _ E)|]. injection E as <- _. exact Q.
Qed.

Lemma lstrip_fixed : forall s, (forall c r, s = c :: r -> is_space c = false) -> lstrip s = s.
Proof. intros [|c s] H; [reflexivity|]. apply lstrip_id. exact (H c s eq_refl). Qed.

Lemma rstrip_white : forall w t, white w -> rstrip (t ++ w) = rstrip t.
Proof.
  intros w t H. unfold rstrip. rewrite rev_app_distr, lstrip_white; [reflexivity|]. intros c I. apply H, in_rev. exact I.
Qed.

Lemma rstrip_fixed : forall s, (forall r c, s = r ++ [c] -> is_space c = false) -> rstrip s = s.
Proof.
  intros s H. unfold rstrip. rewrite lstrip_fixed; [apply rev_involutive|]. intros c r E. apply (H (rev r) c).
  rewrite <- (rev_involutive s), E. reflexivity.
Qed.

Lemma rstrip_last : forall s r c, rstrip s = r ++ [c] -> is_space c = false.
Proof.
  intros s r c E. unfold rstrip in E. apply (f_equal (@rev N)) in E. rewrite rev_involutive, rev_app_distr in E.
  exact (lstrip_head _ _ _ E).
Qed.

Lemma rstrip_begins : forall s, exists w, s = rstrip s ++ w.
Proof.
  intro s. destruct (lstrip_split (rev s)) as (w & E & _). exists (rev w). unfold rstrip.
  rewrite <- rev_app_distr, <- E, rev_involutive. reflexivity.
Qed.

Lemma split_lines : forall s ls, split_on 10 s = ls <-> lines_are s ls.
Proof.
  intros s ls. split.
  - intros <-. induction s as [|c s IH]; cbn [split_on]; [constructor; intros []|].
    destruct (c =? 10) eqn:Q.
    + apply N.eqb_eq in Q. subst. apply (la_more nil); [intros []|exact IH].
    + apply N.eqb_neq in Q. revert IH. generalize (split_on 10 s). intros ll IH.
      inversion IH as [l F EQ EL|l s' ls F R EQ EL]; subst.
      * constructor. intros [D|D]; [congruence|exact (F D)].
      * apply (la_more (c :: l)); [|exact R]. intros [D|D]; [congruence|exact (F D)].
  - intro H. induction H as [l F|l s ls F R IH].
    + apply split_on_no_sep. apply forallb_forall. intros x I. apply negb_true_iff, N.eqb_neq. intros ->. exact (F I).
    + rewrite split_on_app; [rewrite IH; reflexivity|]. apply forallb_forall. intros x I. apply negb_true_iff, N.eqb_neq.
      intros ->. exact (F I).
Qed.

Lemma note_lines_iff : forall text ls, note_lines text ls <-> split_on 10 (strip text) = ls.
Proof.
  intros text ls. rewrite split_lines. split.
  - intros (b & core & a & -> & Wb & Wa & Hd & Tl & L).
    assert (E : strip (b ++ core ++ a) = core); [|rewrite E; exact L].
    unfold strip. rewrite lstrip_white by exact Wb. destruct core as [|c core].
    + cbn [app]. replace (lstrip a) with (@nil N); [reflexivity|]. symmetry. rewrite <- (app_nil_r a), lstrip_white by exact Wa. reflexivity.
    + cbn [app]. rewrite lstrip_id by exact (Hd c core eq_refl). change (c :: core ++ a) with ((c :: core) ++ a).
      rewrite rstrip_white by exact Wa. apply rstrip_fixed. exact Tl.
  - intro L. destruct (strip_split text) as (b & a & E & Wb & Wa). exists b, (strip text), a.
    split; [exact E|]. split; [apply white_iff; exact Wb|]. split; [apply white_iff; exact Wa|]. split; [|split; [|exact L]].
    + intros c r Q. destruct (rstrip_begins (lstrip text)) as (w & R). unfold strip in Q. rewrite Q in R.
      exact (lstrip_head _ _ _ R).
    + intros r c Q. exact (rstrip_last _ _ _ Q).
Qed.
