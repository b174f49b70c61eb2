(** C120: the OK lines that [sigstore verify] prints can be attributed to the inputs. *)
From Coq Require Import List NArith Lia.
Import ListNotations.
From Verif Require Import Base Codec PyText NoteText PropsCodec Messages Env Tuf Hashing Dsse Policy Bundle BundleJson Verifier CliVerify PropsCliVerify Report ToyBundles PropsRekorClient.

(** ** Specification *)

(** a line of a text *)
Definition line_in (l whole : str) : Prop := exists ls, lines_are whole ls /\ In l ls.

(** what is printed for an input: for a file, a name that stands for this file when it is given to the command; for a
    digest, its algorithm and its hexadecimal digits *)
Definition named (w : World) (x : item) (t : str) : Prop :=
  match x with
  | It_path p => denotes w t (It_path p)
  | It_digest h => exists digits, base16 (h_digest h) digits /\ t = s2l "SHA2_256:" ++ digits
  end.

(** ** Proofs *)

Lemma str_eqb_root : forall q, ~ In 47%N q -> str_eqb q ROOT = false.
Proof. intros q H. apply str_eqb_false. intros ->. apply H. left. reflexivity. Qed.

Lemma split_join_any : forall sep ls, ls <> nil -> (forall l, In l ls -> ~ In sep l) -> split_on sep (join_on sep ls) = ls.
Proof.
  intros sep. induction ls as [|l ls IH]; intros NE F; [contradiction|].
  assert (Q : forallb (fun c => negb (N.eqb c sep)) l = true).
  { apply forallb_forall. intros c I. apply negb_true_iff, N.eqb_neq. intros ->. exact (F l (or_introl eq_refl) I). }
  destruct ls as [|l2 ls]; [apply split_on_no_sep; exact Q|].
  change (join_on sep (l :: l2 :: ls)) with (l ++ sep :: join_on sep (l2 :: ls)). rewrite split_on_app by exact Q.
  rewrite IH; [reflexivity|discriminate|]. intros x I. apply F. right. exact I.
Qed.

Lemma parts_filter : forall ps, (forall q, In q ps -> is_part q = true) -> filter is_part ps = ps.
Proof.
  induction ps as [|q ps IH]; intros H; [reflexivity|]. cbn [filter]. rewrite (H q (or_introl eq_refl)). f_equal. apply IH.
  intros x I. apply H. right. exact I.
Qed.

Lemma path_str_again : forall arg, path_of (path_str (path_of arg)) = path_of arg.
Proof.
  intros arg.
  assert (P : forall q, In q (filter is_part (split_on 47%N arg)) -> is_part q = true /\ ~ In 47%N q).
  { intros q I. apply filter_In in I. destruct I as [I J]. split; [exact J|]. pose proof (split_on_pieces _ _ _ I) as K.
    rewrite forallb_forall in K. intro D. specialize (K _ D). discriminate K. }
  unfold path_of at 2 3. revert P. generalize (filter is_part (split_on 47%N arg)). intros ps P.
  assert (A : path_of (path_str ([ROOT] ++ ps)) = [ROOT] ++ ps).
  { cbn [app path_str]. rewrite str_eqb_refl. unfold path_of. cbn [N.eqb Pos.eqb]. cbn [split_on N.eqb Pos.eqb].
    cbn [filter]. change (is_part nil) with false. cbn iota. f_equal. destruct ps as [|q ps]; [reflexivity|].
    rewrite split_join_any; [|discriminate|intros l I; apply P; exact I]. rewrite parts_filter; [reflexivity|]. intros x I. apply P. exact I. }
  assert (B : path_of (path_str ps) = ps).
  { destruct ps as [|q ps]; [reflexivity|]. assert (R : str_eqb q ROOT = false) by (apply str_eqb_root, P; left; reflexivity).
    unfold path_str. rewrite R. unfold path_of.
    assert (H : match join_on 47%N (q :: ps) with c :: _ => if N.eqb c 47 then [ROOT] else nil | nil => nil end = nil).
    { destruct (P q (or_introl eq_refl)) as [Q1 Q2]. destruct q as [|c q]; [discriminate Q1|].
      assert (C : N.eqb c 47 = false) by (apply N.eqb_neq; intros ->; apply Q2; left; reflexivity).
      destruct ps; cbn [join_on app]; rewrite C; reflexivity. }
    rewrite H. cbn [app]. rewrite split_join_any; [|discriminate|intros l I; apply P; exact I].
    apply parts_filter. intros x I. apply P. exact I. }
  destruct arg as [|c arg]; [exact B|]. destruct (N.eqb c 47); [exact A|exact B].
Qed.

Lemma join_chars : forall c sep ps, In c (join_on sep ps) -> c = sep \/ exists q, In q ps /\ In c q.
Proof.
  intros c sep. induction ps as [|q ps IH]; intro I; [destruct I|]. destruct ps as [|q2 ps].
  - right. exists q. split; [left; reflexivity|exact I].
  - change (join_on sep (q :: q2 :: ps)) with (q ++ sep :: join_on sep (q2 :: ps)) in I. apply in_app_or in I.
    destruct I as [I|[I|I]]; [right; exists q; split; [left; reflexivity|exact I]|left; auto|].
    destruct (IH I) as [->|(r & J & K)]; [left; reflexivity|right; exists r; split; [right; exact J|exact K]].
Qed.

Lemma split_chars : forall c sep s q, In q (split_on sep s) -> In c q -> In c s.
Proof.
  intros c sep s. induction s as [|x s IH]; intros q I J; cbn [split_on] in I.
  - destruct I as [<-|[]]. exact J.
  - destruct (N.eqb x sep).
    + destruct I as [<-|I]; [destruct J|right; exact (IH _ I J)].
    + pose proof (split_on_nonempty sep s). destruct (split_on sep s) as [|p ps]; [contradiction|].
      destruct I as [<-|I]; [destruct J as [->|J]; [left; reflexivity|right; apply (IH p); [left; reflexivity|exact J]]|].
      right. apply (IH q); [right; exact I|exact J].
Qed.

Lemma path_str_no_newline : forall arg, ~ In 10%N arg -> ~ In 10%N (path_str (path_of arg)).
Proof.
  intros arg N.
  assert (P : forall q, In q (filter is_part (split_on 47%N arg)) -> ~ In 10%N q).
  { intros q I D. apply filter_In in I. exact (N (split_chars _ _ _ _ (proj1 I) D)). }
  unfold path_of. revert P. generalize (filter is_part (split_on 47%N arg)). intros ps P.
  assert (J : ~ In 10%N (join_on 47%N ps)).
  { intro D. apply join_chars in D. destruct D as [D|(q & I & D)]; [discriminate D|exact (P q I D)]. }
  assert (A : ~ In 10%N (path_str ([ROOT] ++ ps))).
  { cbn [app path_str]. rewrite str_eqb_refl. intros [D|D]; [discriminate D|exact (J D)]. }
  assert (B : ~ In 10%N (path_str ps)).
  { destruct ps as [|q ps]; [cbn; intuition discriminate|]. unfold path_str. destruct (str_eqb q ROOT) eqn:R; [|exact J].
    intros [D|D]; [discriminate D|]. apply join_chars in D. destruct D as [D|(r & I & D)]; [discriminate D|]. exact (P r (or_intror I) D). }
  destruct arg as [|c arg]; [exact B|]. destruct (N.eqb c 47); [exact A|exact B].
Qed.

Lemma hex_no_newline : forall b, ~ In 10%N (hex b).
Proof.
  intros b D. rewrite (hex_is_base16 b) in D. apply in_flat_map in D. destruct D as (x & _ & D).
  assert (G : forall v, (v < 16)%N -> digit v <> 10%N).
  { intros v L. assert (E : In v (map N.of_nat (seq 0 16))) by (apply in_map_iff; exists (N.to_nat v); split; [lia|apply in_seq; lia]).
    cbn in E. repeat (destruct E as [<-|E]; [vm_compute; discriminate|]). destruct E. }
  assert (L : (b2n x < 256)%N) by (destruct x; reflexivity).
  destruct D as [D|[D|[]]]; revert D; apply G; [apply N.div_lt_upper_bound; lia|apply N.mod_lt; lia].
Qed.

Lemma item_named : forall w arg x, denotes w arg x -> named w x (item_str x).
Proof.
  intros w arg x [(b & C & ->)|(C & sep & text & d & _ & _ & _ & ->)]; cbn [item_str named].
  - left. exists b. rewrite path_str_again. auto.
  - exists (hex d). split; [apply hex_is_base16|reflexivity].
Qed.

Lemma item_no_newline : forall w arg x, denotes w arg x -> ~ In 10%N arg -> ~ In 10%N (item_str x).
Proof.
  intros w arg x [(b & C & ->)|(C & sep & text & d & _ & _ & _ & ->)] N; cbn [item_str].
  - apply path_str_no_newline. exact N.
  - intro D. unfold hashed_str in D. apply in_app_or in D. destruct D as [D|[D|D]]; [cbn in D; intuition discriminate|discriminate D|].
    exact (hex_no_newline _ D).
Qed.

(** The lines of the text, for lines without newlines in them. *)
Lemma stderr_lines : forall ls, (forall x, In (L_ok x) ls -> ~ In 10%N (item_str x)) ->
  exists ts, lines_are (stderr_text ls) ts /\
    (forall t, In t ts -> t = nil \/ exists x, In (L_ok x) ls /\ t = s2l "OK: " ++ item_str x) /\
    (forall x, In (L_ok x) ls -> In (s2l "OK: " ++ item_str x) ts).
Proof.
  induction ls as [|l ls IH]; intros F.
  - exists [nil]. split; [constructor; intros []|]. split; [intros t [<-|[]]; left; reflexivity|intros x []].
  - destruct IH as (ts & L & A & B); [intros x I; apply F; right; exact I|].
    destruct l as [x|x|s|b].
    2,3,4: (exists ts; split; [exact L|]; split;
      [intros t I; destruct (A t I) as [->|(y & J & ->)]; [left; reflexivity|right; exists y; split; [right; exact J|reflexivity]]
      |intros y [D|J]; [discriminate D|exact (B y J)]]).
    exists ((s2l "OK: " ++ item_str x) :: ts). split; [|split].
    + change (stderr_text (L_ok x :: ls)) with ((s2l "OK: " ++ item_str x ++ [10%N]) ++ stderr_text ls).
      rewrite <- !app_assoc. cbn [app]. rewrite app_assoc. apply la_more; [|exact L].
      intro D. apply in_app_or in D. destruct D as [D|D]; [cbn in D; intuition discriminate|]. exact (F x (or_introl eq_refl) D).
    + intros t [<-|I]; [right; exists x; split; [left; reflexivity|reflexivity]|].
      destruct (A t I) as [->|(y & J & ->)]; [left; reflexivity|right; exists y; split; [right; exact J|reflexivity]].
    + intros y [D|J]; [injection D as <-; left; reflexivity|right; exact (B y J)].
Qed.

Lemma lines_unique : forall s a b, lines_are s a -> lines_are s b -> a = b.
Proof. intros s a b A B. apply split_lines in A, B. congruence. Qed.

Definition quiet (show : Statement -> res line) : Prop := forall st y, show st <> Ok (L_ok y).
Lemma quiet_decoded : quiet show_decoded.
Proof. intros st y D. unfold show_decoded in D. destruct (py_decode (st_contents st)); discriminate D. Qed.
Lemma quiet_repr : quiet show_repr.
Proof. intros st y D. discriminate D. Qed.

Lemma loop_ok : forall env ps w verbose show v p x l, quiet show -> In (L_ok x) (fst (verify_loop env ps w verbose show v p l)) ->
  exists h b st, In (x, (h, b)) l /\ verify_common env ps w (w_when w x) v h b p = Ok st.
Proof.
  intros env ps w verbose show v p x l Q. induction l as [|[y [h b]] l IH]; intro H; [destruct H|]. cbn [verify_loop] in H.
  assert (R : In (L_ok x) (fst (verify_loop env ps w verbose show v p l)) ->
    exists h' b' st, In (x, (h', b')) ((y, (h, b)) :: l) /\ verify_common env ps w (w_when w x) v h' b' p = Ok st).
  { intro I. destruct (IH I) as (h' & b' & st' & I' & V'). exists h', b', st'. split; [right|]; assumption. }
  assert (T : forall st, verify_common env ps w (w_when w y) v h b p = Ok st -> L_ok y = L_ok x ->
    exists h' b' st, In (x, (h', b')) ((y, (h, b)) :: l) /\ verify_common env ps w (w_when w x) v h' b' p = Ok st).
  { intros st V D. injection D as <-. exists h, b, st. split; [left; reflexivity|exact V]. }
  destruct (verify_common env ps w (w_when w y) v h b p) as [[st|]|e].
  - destruct (show st) as [ln|e] eqn:Sd.
    + destruct (verify_loop env ps w verbose show v p l) as [out r]. cbn [fst] in *. destruct H as [D|[D|I]]; [exact (T _ eq_refl D)| |exact (R I)].
      subst ln. destruct (Q _ _ Sd).
    + destruct (is_sigstore_error e); cbn [fst] in H.
      * destruct H as [D|[D|[]]]; [exact (T _ eq_refl D)|discriminate D].
      * destruct H as [D|[]]. exact (T _ eq_refl D).
  - destruct (verify_loop env ps w verbose show v p l) as [out r]. cbn [fst] in *. destruct H as [D|I]; [exact (T _ eq_refl D)|exact (R I)].
  - destruct (is_sigstore_error e); cbn [fst] in H; [destruct H as [D|[]]; discriminate D|destruct H].
Qed.

Lemma loop_all : forall env ps w verbose show v p l,
  snd (verify_loop env ps w verbose show v p l) = Ok tt -> forall x, In x (map fst l) -> In (L_ok x) (fst (verify_loop env ps w verbose show v p l)).
Proof.
  intros env ps w verbose show v p. induction l as [|[y [h b]] l IH]; intros H x I; [destruct I|]. cbn [verify_loop] in *. cbn [map fst] in I.
  destruct (verify_common env ps w (w_when w y) v h b p) as [[st|]|e].
  - destruct (show st) as [ln|e].
    + destruct (verify_loop env ps w verbose show v p l) as [out r]. cbn [fst snd] in *. destruct I as [<-|I]; [left; reflexivity|right; right; exact (IH H x I)].
    + exfalso. destruct (is_sigstore_error e); cbn [snd] in H; [unfold log_and_exit in H; destruct verbose; discriminate H|discriminate H].
  - destruct (verify_loop env ps w verbose show v p l) as [out r]. cbn [fst snd] in *. destruct I as [<-|I]; [left; reflexivity|right; exact (IH H x I)].
  - exfalso. destruct (is_sigstore_error e); cbn [snd] in H; [unfold log_and_exit in H; destruct verbose; discriminate H|discriminate H].
Qed.

Lemma run_ok : forall env ps w a show p x, quiet show -> In (L_ok x) (fst (run_verify env ps w a show p)) ->
  exists arg v d b st, In arg (va_inputs a) /\ denotes w arg x /\
    verifier_selected env w a v /\ digest_of env w x d /\ evidence env w a v x d b /\ vouched env ps w (w_when w x) v p d b st.
Proof.
  intros env ps w a show p x Q. unfold run_verify.
  destruct (collect_verification_state env w a) as [[v all]|e] eqn:C; [|intros []].
  destruct (collect_sound _ _ _ _ _ C) as (items & F & _ & V & M & E). intro H.
  destruct (loop_ok _ _ _ _ _ _ _ _ _ Q H) as (h & b & st & I & Vc).
  destruct (E _ _ _ I) as (d & -> & Dg & Ev). apply verify_common_iff in Vc.
  assert (J : In x items) by (apply M; apply in_map_iff; exists (x, (mkHashed HA_SHA2_256 d, b)); split; [reflexivity|exact I]).
  assert (G : exists arg, In arg (va_inputs a) /\ denotes w arg x).
  { clear - F J. induction F as [|arg y args items D F IH]; [destruct J|].
    destruct J as [<-|J]; [exists arg; split; [left; reflexivity|exact D]|]. destruct (IH J) as (g & K & L). exists g. split; [right; exact K|exact L]. }
  destruct G as (arg & K & D). exists arg, v, d, b, st. auto 10.
Qed.

Lemma run_all : forall env ps w a show p, snd (run_verify env ps w a show p) = Ok tt ->
  forall arg x, In arg (va_inputs a) -> denotes w arg x -> In (L_ok x) (fst (run_verify env ps w a show p)).
Proof.
  intros env ps w a show p H arg x I D. unfold run_verify in *.
  destruct (collect_verification_state env w a) as [[v all]|e] eqn:C; [|discriminate H].
  destruct (collect_sound _ _ _ _ _ C) as (items & F & _ & _ & M & _). apply loop_all; [exact H|].
  apply M. clear - F I D. induction F as [|g y gs ys Dg F IH]; [destruct I|]. destruct I as [->|I]; [left|right; exact (IH I)].
  apply file_or_digest_iff in D, Dg. congruence.
Qed.

(** the lines of a command are attributed to its inputs *)
Definition attributed (env : Env) (ps : Parsers) (w : World) (a : VerifyArgs) (p : policy) (t : str) : Prop :=
  exists arg x v d b st, In arg (va_inputs a) /\ denotes w arg x /\ named w x t /\
    verifier_selected env w a v /\ digest_of env w x d /\ evidence env w a v x d b /\ vouched env ps w (w_when w x) v p d b st.

Lemma run_line : forall env ps w a show p t, quiet show -> (forall arg, In arg (va_inputs a) -> ~ In 10%N arg) ->
  line_in (s2l "OK: " ++ t) (stderr_text (fst (run_verify env ps w a show p))) -> attributed env ps w a p t.
Proof.
  intros env ps w a show p t Q NN (ls & L & I).
  destruct (stderr_lines (fst (run_verify env ps w a show p))) as (ts & L' & A & _).
  { intros x J. destruct (run_ok _ _ _ _ _ _ _ Q J) as (arg & _ & _ & _ & _ & K & D & _). exact (item_no_newline _ _ _ D (NN _ K)). }
  rewrite (lines_unique _ _ _ L L') in I. destruct (A _ I) as [D|(x & J & E)]; [discriminate D|].
  apply app_inv_head in E. subst t. destruct (run_ok _ _ _ _ _ _ _ Q J) as (arg & v & d & b & st & K & D & R).
  exists arg, x, v, d, b, st. split; [exact K|]. split; [exact D|]. split; [exact (item_named _ _ _ D)|exact R].
Qed.

Lemma run_every : forall env ps w a show p, quiet show -> (forall arg, In arg (va_inputs a) -> ~ In 10%N arg) ->
  snd (run_verify env ps w a show p) = Ok tt -> forall arg x, In arg (va_inputs a) -> denotes w arg x ->
  exists t, named w x t /\ line_in (s2l "OK: " ++ t) (stderr_text (fst (run_verify env ps w a show p))).
Proof.
  intros env ps w a show p Q NN H arg x I D. exists (item_str x). split; [exact (item_named _ _ _ D)|].
  destruct (stderr_lines (fst (run_verify env ps w a show p))) as (ts & L & _ & B).
  { intros y J. destruct (run_ok _ _ _ _ _ _ _ Q J) as (g & _ & _ & _ & _ & K & Dy & _). exact (item_no_newline _ _ _ Dy (NN _ K)). }
  exists ts. split; [exact L|]. apply B. exact (run_all _ _ _ _ _ _ H _ _ I D).
Qed.

Lemma identity_run : forall env ps w a identity issuer,
  fst (verify_identity env ps w a identity issuer) = fst (run_verify env ps w a show_decoded (P_identity identity (Some issuer))) /\
  (snd (verify_identity env ps w a identity issuer) = Ok tt -> snd (run_verify env ps w a show_decoded (P_identity identity (Some issuer))) = Ok tt).
Proof.
  intros. unfold verify_identity. destruct (run_verify env ps w a show_decoded (P_identity identity (Some issuer))) as [out r].
  split; [reflexivity|]. apply main_handler_ok.
Qed.

Lemma github_run : forall env ps w a g,
  (fst (verify_github env ps w a g) = nil \/ fst (verify_github env ps w a g) = fst (run_verify env ps w a show_repr (github_policy g))) /\
  (snd (verify_github env ps w a g) = Ok tt -> fst (verify_github env ps w a g) = fst (run_verify env ps w a show_repr (github_policy g)) /\
     snd (run_verify env ps w a show_repr (github_policy g)) = Ok tt).
Proof.
  intros. unfold verify_github. destruct (negb _); [split; [left; reflexivity|discriminate]|].
  destruct (run_verify env ps w a show_repr (github_policy g)) as [out r].
  split; [right; reflexivity|]. intro H. split; [reflexivity|]. exact (proj1 (main_handler_ok _ _) H).
Qed.

(** A printed line OK names an input of the command that was verified, whatever the outcome of the command. *)
Theorem C120_ok_line : forall env ps w a identity issuer t,
  (forall arg, In arg (va_inputs a) -> ~ In 10%N arg) ->
  line_in (s2l "OK: " ++ t) (stderr_text (fst (verify_identity env ps w a identity issuer))) ->
  exists arg x v d b st, In arg (va_inputs a) /\ denotes w arg x /\ named w x t /\
    verifier_selected env w a v /\ digest_of env w x d /\ evidence env w a v x d b /\
    vouched env ps w (w_when w x) v (P_identity identity (Some issuer)) d b st.
Proof.
  intros env ps w a identity issuer t NN. destruct (identity_run env ps w a identity issuer) as [-> _]. apply run_line; [exact quiet_decoded|exact NN].
Qed.

Theorem C120_ok_line_github : forall env ps w a g t,
  (forall arg, In arg (va_inputs a) -> ~ In 10%N arg) ->
  line_in (s2l "OK: " ++ t) (stderr_text (fst (verify_github env ps w a g))) ->
  exists arg x v d b st, In arg (va_inputs a) /\ denotes w arg x /\ named w x t /\
    verifier_selected env w a v /\ digest_of env w x d /\ evidence env w a v x d b /\
    vouched env ps w (w_when w x) v (github_policy g) d b st.
Proof.
  intros env ps w a g t NN. destruct (proj1 (github_run env ps w a g)) as [-> | ->]; [|apply run_line; [exact quiet_repr|exact NN]].
  intros (ls & L & I). apply split_lines in L. subst ls. destruct I as [D|[]]. discriminate D.
Qed.

(** A command that succeeds prints such a line for every input. *)
Theorem C120_every_input : forall env ps w a identity issuer,
  (forall arg, In arg (va_inputs a) -> ~ In 10%N arg) -> snd (verify_identity env ps w a identity issuer) = Ok tt ->
  forall arg x, In arg (va_inputs a) -> denotes w arg x ->
  exists t, named w x t /\ line_in (s2l "OK: " ++ t) (stderr_text (fst (verify_identity env ps w a identity issuer))).
Proof.
  intros env ps w a identity issuer NN H. destruct (identity_run env ps w a identity issuer) as [-> K].
  apply run_every; [exact quiet_decoded|exact NN|exact (K H)].
Qed.

Theorem C120_every_input_github : forall env ps w a g,
  (forall arg, In arg (va_inputs a) -> ~ In 10%N arg) -> snd (verify_github env ps w a g) = Ok tt ->
  forall arg x, In arg (va_inputs a) -> denotes w arg x ->
  exists t, named w x t /\ line_in (s2l "OK: " ++ t) (stderr_text (fst (verify_github env ps w a g))).
Proof.
  intros env ps w a g NN H. destruct (proj2 (github_run env ps w a g) H) as [-> K]. apply run_every; [exact quiet_repr|exact NN|exact K].
Qed.

(** Two inputs of the same kind never share a name. *)
Theorem C120_unambiguous : forall w arg arg' x y t, denotes w arg x -> denotes w arg' y -> named w x t -> named w y t ->
  x = y \/ (exists p h, x = It_path p /\ y = It_digest h) \/ (exists p h, x = It_digest h /\ y = It_path p).
Proof.
  intros w arg arg' [p|h] [q|k] t Dx Dy A B.
  - left. apply (proj2 (file_or_digest_iff w t (It_path p))) in A. apply (proj2 (file_or_digest_iff w t (It_path q))) in B. congruence.
  - right; left. eauto.
  - right; right. eauto.
  - left. cbn [named] in A, B. destruct A as (u & U & ->), B as (v & V & E). apply app_inv_head in E. subst v.
    destruct Dx as [(b & _ & D)|(_ & s1 & t1 & d1 & _ & _ & _ & D1)]; [discriminate D|].
    destruct Dy as [(b & _ & D)|(_ & s2 & t2 & d2 & _ & _ & _ & D2)]; [discriminate D|]. injection D1 as ->. injection D2 as ->.
    cbn [h_digest] in U, V. do 2 f_equal. revert U V. unfold base16. intros U V.
    assert (E : hex d1 = hex d2) by (rewrite (hex_is_base16 d1), (hex_is_base16 d2); congruence).
    apply hex_inj in E. rewrite E. reflexivity.
Qed.

(** Without the condition on newlines the lines mislead: the file [b.txt] is not an input, and the bundle is not its bundle,
    but the name of another file contains the line for it. *)
Definition rpx_files (name : str) : fs := fun q => if path_eqb q [s2l "home"; name] then Some vx_input else cvx_files q.
Definition rpx_world (name : str) : World :=
  mkWorld [s2l "home"] (rpx_files name) (w_load_pem cvx_world) cvx_parse cvx_validate (fun _ => Raise EValue)
    cvx_config (w_rekor cvx_world) rkx_rp vx_now (fun _ => vx_now).
Definition rpx_run (name : str) : list line * res unit :=
  verify_identity vx_env vx_parsers (rpx_world name) (mkVA [name] None None (Some [s2l "a.txt.sigstore.json"]) true None None false false)
    (s2l "a@b.c") (s2l "https://issuer.example").
Definition rpx_two : str := s2l "a.txt" ++ 10%N :: s2l "OK: b.txt".

Theorem C120_newline_refuted : exists env ps w a identity issuer arg x,
  va_inputs a = [arg] /\ denotes w arg x /\ snd (verify_identity env ps w a identity issuer) = Ok tt /\
  line_in (s2l "OK: " ++ s2l "b.txt") (stderr_text (fst (verify_identity env ps w a identity issuer))) /\ ~ named w x (s2l "b.txt").
Proof.
  exists vx_env, vx_parsers, (rpx_world rpx_two), (mkVA [rpx_two] None None (Some [s2l "a.txt.sigstore.json"]) true None None false false),
    (s2l "a@b.c"), (s2l "https://issuer.example"), rpx_two, (It_path [rpx_two]).
  split; [reflexivity|]. split; [apply file_or_digest_iff; vm_compute; reflexivity|]. split; [vm_compute; reflexivity|]. split.
  - eexists. split; [apply split_lines; reflexivity|]. apply (nth_error_In _ 1). vm_compute. reflexivity.
  - intro D. cbn [named] in D. apply file_or_digest_iff in D. vm_compute in D. discriminate D.
Qed.

(** A file can be named like a digest; what is verified then is the file, whose digest may be another one. *)
Definition rpx_digest_name : str := s2l "SHA2_256:" ++ hex (e_hash vx_env SHA256 cvx_b).
Theorem C120_file_or_digest_refuted : exists env ps w a identity issuer arg x h t,
  va_inputs a = [arg] /\ denotes w arg x /\ snd (verify_identity env ps w a identity issuer) = Ok tt /\
  line_in (s2l "OK: " ++ t) (stderr_text (fst (verify_identity env ps w a identity issuer))) /\
  named w (It_digest h) t /\ ~ digest_of env w x (h_digest h).
Proof.
  exists vx_env, vx_parsers, (rpx_world rpx_digest_name), (mkVA [rpx_digest_name] None None (Some [s2l "a.txt.sigstore.json"]) true None None false false),
    (s2l "a@b.c"), (s2l "https://issuer.example"), rpx_digest_name, (It_path [rpx_digest_name]), (mkHashed HA_SHA2_256 (e_hash vx_env SHA256 cvx_b)), rpx_digest_name.
  split; [reflexivity|]. split; [apply file_or_digest_iff; vm_compute; reflexivity|]. split; [vm_compute; reflexivity|]. split.
  - eexists. split; [apply split_lines; reflexivity|]. apply (nth_error_In _ 0). vm_compute. reflexivity.
  - split.
    + exists (hex (e_hash vx_env SHA256 cvx_b)). split; [apply hex_is_base16|reflexivity].
    + intros (b & C & E). vm_compute in C. injection C as <-. vm_compute in E. discriminate E.
Qed.

(** What is printed for a digest is not accepted as an input, unlike what is printed for a file. *)
Theorem C120_digest_again_refuted : exists w arg h t, denotes w arg (It_digest h) /\ named w (It_digest h) t /\ forall y, ~ denotes w t y.
Proof.
  exists cvx_world, (s2l "sha256:" ++ hex vx_digest), (mkHashed HA_SHA2_256 vx_digest), (s2l "SHA2_256:" ++ hex vx_digest).
  split; [apply file_or_digest_iff; vm_compute; reflexivity|]. split; [exists (hex vx_digest); split; [apply hex_is_base16|reflexivity]|].
  intros y D. apply file_or_digest_iff in D. vm_compute in D. discriminate D.
Qed.

(** ** A concrete command *)
Example ex_printed :
  stderr_text (fst (cvx_identity (cvx_args [s2l "a.txt"; s2l "./b.txt"; s2l "/home//a.txt"]) "a@b.c" "https://issuer.example")) =
  s2l "OK: a.txt" ++ 10%N :: s2l "OK: b.txt" ++ 10%N :: s2l "OK: /home/a.txt" ++ [10%N] /\
  (forall arg, In arg [s2l "a.txt"; s2l "./b.txt"; s2l "/home//a.txt"] -> ~ In 10%N arg) /\
  named cvx_world (It_path [s2l "b.txt"]) (s2l "b.txt") /\ named cvx_world (It_path [s2l "/"; s2l "home"; s2l "a.txt"]) (s2l "/home/a.txt").
Proof.
  split; [vm_compute; reflexivity|]. split; [|split; apply file_or_digest_iff; vm_compute; reflexivity].
  assert (G : forall arg, existsb (N.eqb 10) arg = false -> ~ In 10%N arg).
  { intros arg F D. assert (E : existsb (N.eqb 10) arg = true) by (apply existsb_exists; exists 10%N; split; [exact D|reflexivity]). congruence. }
  intros arg [<-|[<-|[<-|[]]]]; apply G; reflexivity.
Qed.
Example ex_printed_digest :
  stderr_text (fst (cvx_identity (mkVA [s2l "sha256:" ++ hex vx_digest] None None (Some [s2l "a.txt.sigstore.json"]) true None None false false) "a@b.c" "https://issuer.example")) =
  s2l "OK: SHA2_256:" ++ hex vx_digest ++ [10%N].
Proof. vm_compute. reflexivity. Qed.
Example ex_unambiguous : forall t, ~ (named cvx_world (It_path [s2l "a.txt"]) t /\ named cvx_world (It_path [s2l "b.txt"]) t).
Proof.
  intros t [A B]. destruct (C120_unambiguous cvx_world (s2l "a.txt") (s2l "b.txt") _ _ t
    (proj1 (file_or_digest_iff cvx_world (s2l "a.txt") (It_path [s2l "a.txt"])) eq_refl)
    (proj1 (file_or_digest_iff cvx_world (s2l "b.txt") (It_path [s2l "b.txt"])) eq_refl) A B) as [D|[(p & h & _ & D)|(p & h & D & _)]]; discriminate D.
Qed.

Print Assumptions C120_ok_line.
Print Assumptions C120_ok_line_github.
Print Assumptions C120_every_input.
Print Assumptions C120_every_input_github.
Print Assumptions C120_unambiguous.
Print Assumptions C120_newline_refuted.
Print Assumptions C120_file_or_digest_refuted.
Print Assumptions C120_digest_again_refuted.
