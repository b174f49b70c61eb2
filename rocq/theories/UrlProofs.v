(** Lemmas about the URLs of Url.v. *)
From Verif Require Import Base Messages Codec PyText Tuf PropsTuf Url.
Local Open Scope N_scope.

(** ** Separators *)

Lemma not_in_all : forall sep s, ~ In sep s -> forallb (fun c => negb (c =? sep)) s = true.
Proof. intros sep s H. apply forallb_forall. intros c I. apply negb_true_iff, N.eqb_neq. intros ->. contradiction. Qed.
Lemma split_one : forall sep s, ~ In sep s -> split_on sep s = [s].
Proof. intros sep s H. apply split_on_no_sep, not_in_all, H. Qed.
Lemma split_first : forall sep s t, ~ In sep s -> split_on sep (s ++ sep :: t) = s :: split_on sep t.
Proof. intros sep s t H. apply split_on_app, not_in_all, H. Qed.
Lemma split_join : forall sep l, l <> nil -> (forall x, In x l -> ~ In sep x) -> split_on sep (join_on sep l) = l.
Proof.
  intros sep l. induction l as [|x l IH]; intros Ne H; [congruence|]. cbn [join_on]. destruct l as [|y l]; [apply split_one, H; left; reflexivity|].
  rewrite split_first by (apply H; left; reflexivity). f_equal. apply IH; [discriminate|]. intros z I. apply H. right. exact I.
Qed.
Lemma cut_spec : forall sep s a b, cut sep s = Some (a, b) <-> s = a ++ sep :: b /\ ~ In sep a.
Proof.
  intros sep. induction s as [|c s IH]; intros a b; cbn [cut].
  - split; [discriminate|]. intros [H _]. destruct a; discriminate.
  - destruct (N.eqb_spec c sep) as [->|Ne].
    + split.
      * intros H. inversion H; subst. split; [reflexivity|intros []].
      * intros [H N]. destruct a as [|x a]; cbn in H; inversion H; subst; [reflexivity|]. exfalso. apply N. left. reflexivity.
    + destruct (cut sep s) as [[a' b']|] eqn:E.
      * split.
        -- intros H. inversion H; subst. pose proof (proj1 (IH a' b) eq_refl) as [-> N].
           split; [reflexivity|]. intros [Q|Q]; [congruence|contradiction].
        -- intros [H N]. destruct a as [|x a]; cbn in H; inversion H; subst; [congruence|].
           assert (X : Some (a', b') = Some (a, b)) by (apply IH; split; [reflexivity|]; intros I; apply N; right; assumption).
           inversion X; subst. reflexivity.
      * split; [discriminate|]. intros [H N]. destruct a as [|x a]; cbn in H; inversion H; subst; [congruence|].
        assert (X : None = Some (a, b)) by (apply IH; split; [reflexivity|intros I; apply N; right; assumption]). discriminate.
Qed.
Lemma cut_none : forall sep s, ~ In sep s -> cut sep s = None.
Proof.
  intros sep s H. destruct (cut sep s) as [[a b]|] eqn:E; [|reflexivity]. exfalso. apply H. apply cut_spec in E as [-> _].
  apply in_or_app. right. left. reflexivity.
Qed.
Lemma cut_app : forall sep a b, ~ In sep a -> cut sep (a ++ sep :: b) = Some (a, b).
Proof. intros sep a b H. apply cut_spec. auto. Qed.

(** ** Form encoding *)

Definition form_byte (x : byte) : str := if b2n x =? 32 then [43] else quote_byte x.
Lemma quote_plus_eq : forall s, quote_plus s = match utf8_encode s with Some b => Ok (flat_map form_byte b) | None => Raise EUnicodeEncode end.
Proof. reflexivity. Qed.
Lemma safe_range : forall c, quote_safe c = true -> c <= 126 /\ c <> 43 /\ c <> 37 /\ c <> 61 /\ c <> 38 /\ c <> 35 /\ c <> 63 /\ c <> 47 /\ c <> 32.
Proof.
  intros c H. unfold quote_safe in H. repeat rewrite orb_true_iff in H. rewrite !andb_true_iff, !N.leb_le, !N.eqb_eq in H. lia.
Qed.
Lemma form_chars : forall s t c, quote_plus s = Ok t -> In c t -> quote_safe c = true \/ c = 37 \/ c = 43.
Proof.
  intros s t c H I. rewrite quote_plus_eq in H. destruct (utf8_encode s) as [b|]; [|discriminate]. inversion H; subst. clear H.
  apply in_flat_map in I. destruct I as (x & _ & I). unfold form_byte in I. destruct (b2n x =? 32); [destruct I as [<-|[]]; auto|].
  apply quote_byte_safe in I. tauto.
Qed.
Lemma form_not : forall s t c, quote_plus s = Ok t -> quote_safe c = false -> c <> 37 -> c <> 43 -> ~ In c t.
Proof. intros s t c H S A B I. destruct (form_chars _ _ _ H I) as [E|[E|E]]; congruence. Qed.

Lemma upper_value : forall a, a < 16 -> hex_value (upper_digit a) = Some a.
Proof.
  intros a H. unfold hex_value, upper_digit. destruct (N.ltb_spec a 10).
  - replace ((48 <=? 48 + a) && (48 + a <=? 57)) with true by (symmetry; apply andb_true_iff; rewrite !N.leb_le; lia). f_equal. lia.
  - replace ((48 <=? 55 + a) && (55 + a <=? 57)) with false by (symmetry; apply andb_false_iff; rewrite !N.leb_gt; lia).
    replace ((97 <=? 55 + a) && (55 + a <=? 102)) with false by (symmetry; apply andb_false_iff; rewrite !N.leb_gt; lia).
    replace ((65 <=? 55 + a) && (55 + a <=? 70)) with true by (symmetry; apply andb_true_iff; rewrite !N.leb_le; lia). f_equal. lia.
Qed.
(** a byte as it is after the replacement of plus signs *)
Definition quoted_byte (x : byte) : str := if b2n x =? 32 then [32] else quote_byte x.
Lemma unquote_byte : forall x r, unquote_bytes (quoted_byte x ++ r) = x :: unquote_bytes r.
Proof.
  intros x r. unfold quoted_byte. destruct (N.eqb_spec (b2n x) 32) as [E|Ne].
  - cbn [app unquote_bytes]. change (32 =? 37) with false. cbv iota. rewrite <- E, n2b_b2n. reflexivity.
  - unfold quote_byte. cbv zeta. destruct (quote_safe (b2n x)) eqn:S.
    + cbn [app unquote_bytes]. apply safe_range in S. destruct (N.eqb_spec (b2n x) 37); [lia|]. rewrite n2b_b2n. reflexivity.
    + cbn [app unquote_bytes]. change (37 =? 37) with true. cbv iota. pose proof (b2n_lt x).
      rewrite !upper_value by (try (apply N.div_lt_upper_bound; lia); apply N.mod_lt; lia).
      rewrite <- N.div_mod by lia. rewrite n2b_b2n. reflexivity.
Qed.
Lemma unquote_quoted : forall b, unquote_bytes (flat_map quoted_byte b) = b.
Proof. induction b as [|x b IH]; [reflexivity|]. cbn [flat_map]. rewrite unquote_byte, IH. reflexivity. Qed.
Lemma replace_plus_app : forall a b, replace_plus (a ++ b) = replace_plus a ++ replace_plus b.
Proof. intros a b. apply map_app. Qed.
Lemma replace_plus_id : forall s, ~ In 43 s -> replace_plus s = s.
Proof.
  induction s as [|c s IH]; intros H; [reflexivity|]. cbn. destruct (N.eqb_spec c 43) as [->|]; [exfalso; apply H; left; reflexivity|]. f_equal.
  apply IH. intros I. apply H. right. exact I.
Qed.
Lemma replace_form : forall b, replace_plus (flat_map form_byte b) = flat_map quoted_byte b.
Proof.
  induction b as [|x b IH]; [reflexivity|]. cbn [flat_map]. rewrite replace_plus_app, IH. f_equal. unfold form_byte, quoted_byte.
  destruct (b2n x =? 32); [reflexivity|]. apply replace_plus_id. intros I. apply quote_byte_safe in I. destruct I as [I|I]; [|discriminate]. apply safe_range in I. lia.
Qed.
Lemma quoted_ascii : forall b c, In c (flat_map quoted_byte b) -> c < 128.
Proof.
  intros b c I. apply in_flat_map in I. destruct I as (x & _ & I). unfold quoted_byte in I. destruct (b2n x =? 32); [destruct I as [<-|[]]; lia|].
  apply quote_byte_safe in I. destruct I as [I| ->]; [apply safe_range in I; lia|lia].
Qed.
Lemma unquote_ascii : forall lib s run, (forall c, In c s -> c < 128) -> unquote_runs lib run s = decode_replace lib (unquote_bytes (run ++ s)).
Proof.
  intros lib. induction s as [|c s IH]; intros run H; cbn [unquote_runs]; [rewrite app_nil_r; reflexivity|].
  replace (c <? 128) with true by (symmetry; apply N.ltb_lt, H; left; reflexivity). rewrite IH by (intros d I; apply H; right; exact I). rewrite <- app_assoc. reflexivity.
Qed.
(** what was form encoded is decoded again *)
Lemma form_roundtrip : forall lib s t, quote_plus s = Ok t -> form_decode lib t = s.
Proof.
  intros lib s t H. rewrite quote_plus_eq in H. destruct (utf8_encode s) as [b|] eqn:E; [|discriminate]. inversion H; subst. clear H.
  unfold form_decode, unquote. rewrite replace_form, unquote_ascii by (apply quoted_ascii). cbn [app]. rewrite unquote_quoted. unfold decode_replace.
  rewrite (utf8_decode_encode _ _ E). reflexivity.
Qed.

(** ASCII texts without percent signs are left alone *)
Lemma utf8_ascii : forall s, (forall c, In c s -> c < 128) -> utf8_encode s = Some (map n2b s).
Proof.
  induction s as [|c s IH]; intros H; [reflexivity|].
  assert (L : c < 128) by (apply H; left; reflexivity).
  cbn [utf8_encode map]. rewrite IH by (intros d I; apply H; right; exact I). unfold is_scalar, utf8_char.
  destruct (N.ltb_spec c 55296); [|lia]. destruct (N.ltb_spec c 128); [reflexivity|lia].
Qed.
Lemma unquote_plain : forall s, ~ In 37 s -> unquote_bytes s = map n2b s.
Proof.
  induction s as [|c s IH]; intros H; [reflexivity|]. cbn [unquote_bytes map]. destruct (N.eqb_spec c 37) as [->|_]; [exfalso; apply H; left; reflexivity|].
  f_equal. apply IH. intros I. apply H. right. exact I.
Qed.
Lemma unquote_runs_plain : forall lib s run, ~ In 37 s -> ~ In 37 run -> (forall c, In c run -> c < 128) -> unquote_runs lib run s = run ++ s.
Proof.
  intros lib. assert (D : forall run, ~ In 37 run -> (forall c, In c run -> c < 128) -> decode_replace lib (unquote_bytes run) = run).
  { intros run P A. rewrite unquote_plain by exact P. unfold decode_replace. rewrite (utf8_decode_encode run _ (utf8_ascii run A)). reflexivity. }
  induction s as [|c s IH]; intros run P Q A; cbn [unquote_runs]; [rewrite app_nil_r; apply D; assumption|].
  assert (P' : ~ In 37 s) by (intros I; apply P; right; exact I). destruct (N.ltb_spec c 128).
  - rewrite IH; [rewrite <- app_assoc; reflexivity|exact P'| |].
    + intros I. apply in_app_or in I. destruct I as [I|[I|[]]]; [contradiction|]. apply P. left. exact I.
    + intros d I. apply in_app_or in I. destruct I as [I|[<-|[]]]; [apply A, I|assumption].
  - rewrite D by assumption. f_equal. f_equal. apply IH; [exact P'|intros []|intros d []].
Qed.
Lemma form_plain : forall lib s, ~ In 37 s -> ~ In 43 s -> form_decode lib s = s.
Proof. intros lib s P Q. unfold form_decode, unquote. rewrite replace_plus_id by exact Q. apply (unquote_runs_plain lib s nil P (fun x => x)). intros c []. Qed.

(** the fields of an encoded query *)
Definition field_of (kv : str * str) (f : str) : Prop :=
  exists a b, quote_plus (fst kv) = Ok a /\ quote_plus (snd kv) = Ok b /\ f = a ++ 61 :: b.
Lemma encode_fields_spec : forall l fs, encode_fields l = Ok fs <-> Forall2 field_of l fs.
Proof.
  induction l as [|[k v] l IH]; intros fs; cbn [encode_fields].
  - split; [intros [= <-]; constructor|]. intros H. inversion H. reflexivity.
  - split.
    + destruct (quote_plus k) as [a|] eqn:A; cbn [bind]; [|discriminate]. destruct (quote_plus v) as [b|] eqn:B; cbn [bind]; [|discriminate].
      destruct (encode_fields l) as [r|]; cbn [bind]; [|discriminate]. intros [= <-]. constructor; [exists a, b; auto|]. apply IH. reflexivity.
    + intros H. inversion H as [|? ? ? r (a & b & A & B & ->) F]; subst. cbn [fst snd] in A, B. rewrite A, B. cbn [bind].
      apply IH in F. rewrite F. reflexivity.
Qed.
Lemma field_no : forall kv f c, field_of kv f -> quote_safe c = false -> c <> 37 -> c <> 43 -> c <> 61 -> ~ In c f.
Proof.
  intros kv f c (a & b & A & B & ->) S N1 N2 N3 I. apply in_app_or in I. destruct I as [I|[I|I]]; [|congruence|]; revert I; eapply form_not; eassumption.
Qed.
Lemma urlencode_split : forall l q, l <> nil -> urlencode l = Ok q -> exists fs, Forall2 field_of l fs /\ q = join_on 38 fs /\ split_on 38 q = fs.
Proof.
  intros l q Ne H. unfold urlencode in H. destruct (encode_fields l) as [fs|] eqn:E; cbn [bind] in H; [|discriminate]. inversion H; subst. clear H.
  apply encode_fields_spec in E. exists fs. split; [exact E|]. split; [reflexivity|]. apply split_join.
  - intros ->. inversion E. subst. congruence.
  - intros x I. clear Ne. induction E as [|kv f l fs F E IH]; [destruct I|]. destruct I as [<-|I]; [|apply IH, I].
    eapply field_no; [exact F|reflexivity|lia|lia|lia].
Qed.
Lemma in_join : forall c sep l, In c (join_on sep l) -> c = sep \/ exists x, In x l /\ In c x.
Proof.
  intros c sep l. induction l as [|x l IH]; intros I; [destruct I|]. cbn [join_on] in I. destruct l as [|y l].
  - right. exists x. split; [left; reflexivity|exact I].
  - apply in_app_or in I. destruct I as [I|[I|I]]; [right; exists x; split; [left; reflexivity|exact I]|left; congruence|].
    destruct (IH I) as [E|(z & Z & Iz)]; [left; exact E|right; exists z; split; [right; exact Z|exact Iz]].
Qed.
Lemma urlencode_no : forall l q c, urlencode l = Ok q -> quote_safe c = false -> c <> 37 -> c <> 43 -> c <> 61 -> c <> 38 -> ~ In c q.
Proof.
  intros l q c H S N1 N2 N3 N4 I. unfold urlencode in H. destruct (encode_fields l) as [fs|] eqn:E; cbn [bind] in H; [|discriminate]. inversion H; subst. clear H.
  apply encode_fields_spec in E. apply in_join in I. destruct I as [I|(x & Ix & I)]; [congruence|].
  induction E as [|kv f l fs F E IH]; [destruct Ix|]. destruct Ix as [<-|Ix]; [|apply IH, Ix]. revert I. eapply field_no; eassumption.
Qed.
Lemma quote_plus_ok : forall s b, utf8_encode s = Some b -> exists t, quote_plus s = Ok t.
Proof. intros s b H. rewrite quote_plus_eq, H. eexists. reflexivity. Qed.
Lemma encode_fields_ok : forall l, (forall k v, In (k, v) l -> (exists b, utf8_encode k = Some b) /\ exists b, utf8_encode v = Some b) ->
  exists fs, encode_fields l = Ok fs.
Proof.
  induction l as [|[k v] l IH]; intros H; [eexists; reflexivity|]. destruct (H k v (or_introl eq_refl)) as [[a A] [b B]].
  destruct (quote_plus_ok _ _ A) as [a' A']. destruct (quote_plus_ok _ _ B) as [b' B']. destruct IH as [fs F]; [intros k' v' I; apply H; right; exact I|].
  exists ((a' ++ 61 :: b') :: fs). cbn [encode_fields]. rewrite A', B', F. reflexivity.
Qed.
Lemma urlencode_ascii : forall l q c, urlencode l = Ok q -> In c q -> c < 128.
Proof.
  intros l q c H I. destruct (N.lt_ge_cases c 128) as [L|G]; [exact L|]. exfalso. revert I. eapply urlencode_no; [exact H| |lia|lia|lia|lia].
  destruct (quote_safe c) eqn:S; [|reflexivity]. apply safe_range in S. lia.
Qed.
Lemma encode_fields_raise : forall l e, encode_fields l = Raise e -> e = EUnicodeEncode.
Proof.
  assert (Q : forall s e, quote_plus s = Raise e -> e = EUnicodeEncode) by (intros s e; rewrite quote_plus_eq; destruct (utf8_encode s); congruence).
  induction l as [|[k v] l IH]; intros e H; cbn [encode_fields] in H; [discriminate|]. destruct (quote_plus k) eqn:A; cbn [bind] in H; [|apply (Q k); congruence].
  destruct (quote_plus v) eqn:B; cbn [bind] in H; [|apply (Q v); congruence]. destruct (encode_fields l); cbn [bind] in H; [discriminate|]. apply IH. congruence.
Qed.
Lemma last_after : forall sep a b, ~ In sep b -> last (split_on sep (a ++ sep :: b)) nil = b.
Proof.
  intros sep a b H. induction a as [|c a IH].
  - cbn [app split_on]. rewrite N.eqb_refl, split_one by exact H. reflexivity.
  - cbn [app split_on]. destruct (c =? sep).
    + destruct (split_on sep (a ++ sep :: b)) eqn:E; [exfalso; revert E; apply split_on_nonempty|]. exact IH.
    + destruct (split_on sep (a ++ sep :: b)) as [|p ps] eqn:E; [exfalso; revert E; apply split_on_nonempty|].
      destruct ps as [|p2 ps]; [|exact IH]. exfalso. assert (X : join_on sep [p] = a ++ sep :: b) by (rewrite <- E; apply join_split). cbn [join_on] in X.
      assert (Y : In sep p) by (rewrite X; apply in_or_app; right; left; reflexivity).
      assert (Z : forallb (fun c => negb (c =? sep)) p = true) by (apply (split_on_pieces sep (a ++ sep :: b)); rewrite E; left; reflexivity).
      rewrite forallb_forall in Z. specialize (Z _ Y). rewrite N.eqb_refl in Z. discriminate.
Qed.

(** ** Splitting *)

Lemma sanitise_id : forall s, (forall c r, s = c :: r -> 32 < c) -> (forall c, In c s -> unsafe c = false) -> sanitise s = s.
Proof.
  intros s H U. unfold sanitise. assert (E : lstrip_c0 s = s).
  { destruct s as [|c r]; [reflexivity|]. cbn [lstrip_c0]. destruct (N.leb_spec c 32) as [L|]; [|reflexivity]. specialize (H c r eq_refl). lia. }
  rewrite E. clear E H. induction s as [|c r IH]; [reflexivity|]. cbn [filter]. rewrite (U c) by (left; reflexivity). cbn [negb]. f_equal.
  apply IH. intros d I. apply U. right. exact I.
Qed.
Lemma split_scheme_path : forall d r, split_scheme d (47 :: r) = (d, 47 :: r).
Proof.
  intros d r. unfold split_scheme. cbn [cut]. change (47 =? COLON) with false. cbv iota. destruct (cut COLON r) as [[a b]|]; [|reflexivity].
  change (is_letter 47) with false. reflexivity.
Qed.
(** the path and the query of a request to this machine *)
Lemma urlsplit_local : forall lib d p q, (forall c, In c p -> unsafe c = false /\ c <> 35 /\ c <> 63) -> (forall c, In c q -> unsafe c = false /\ c <> 35) ->
  (forall r, p <> 47 :: r) -> urlsplit lib d (47 :: p ++ 63 :: q) = Ok (mkSplit d nil (47 :: p) q nil).
Proof.
  intros lib d p q P Q N. unfold urlsplit. rewrite sanitise_id.
  - rewrite split_scheme_path. assert (E : split_netloc (47 :: p ++ 63 :: q) = (nil, 47 :: p ++ 63 :: q)).
    { destruct p as [|c p]; [reflexivity|]. cbn [app split_netloc]. change (47 =? SLASH) with true. cbn [andb].
      destruct (N.eqb_spec c SLASH) as [->|]; [exfalso; apply (N p); reflexivity|reflexivity]. }
    rewrite E. change (netloc_ok lib nil) with true. cbv iota. unfold cut_or at 1. rewrite cut_none.
    + unfold cut_or. change (47 :: p ++ 63 :: q) with ((47 :: p) ++ 63 :: q). rewrite cut_app; [reflexivity|].
      intros [I|I]; [discriminate|]. apply P in I as (_ & _ & I). unfold QUESTION in I. congruence.
    + intros [I|I]; [discriminate|]. apply in_app_or in I. destruct I as [I|[I|I]]; [apply P in I as (_ & I & _)|discriminate|apply Q in I as [_ I]]; unfold HASH in I; congruence.
  - intros c r [= <- _]. lia.
  - intros c [<-|I]; [reflexivity|]. apply in_app_or in I. destruct I as [I|[<-|I]]; [apply P, I|reflexivity|apply Q, I].
Qed.
Lemma safe_not_unsafe : forall c, quote_safe c = true -> unsafe c = false.
Proof.
  intros c H. unfold quote_safe in H. repeat rewrite orb_true_iff in H. rewrite !andb_true_iff, !N.leb_le, !N.eqb_eq in H. unfold unsafe.
  rewrite !orb_false_iff, !N.eqb_neq. lia.
Qed.

(** ** Absolute URLs *)

Definition url_scheme (s : str) : Prop := exists c r, s = c :: r /\ is_letter c = true /\ forall x, In x s -> scheme_char x = true.
Lemma scheme_no_colon : forall x, scheme_char x = true -> x <> 58.
Proof.
  intros x H ->. vm_compute in H. discriminate.
Qed.
Lemma split_scheme_abs : forall d s r, url_scheme s -> split_scheme d (s ++ 58 :: r) = (lower s, r).
Proof.
  intros d s r (c & t & -> & L & F). unfold split_scheme. change (58 :: r) with (COLON :: r). rewrite (cut_app COLON (c :: t) r).
  - rewrite L. assert (A : forallb scheme_char (c :: t) = true) by (apply forallb_forall; exact F). rewrite A. reflexivity.
  - intros I. apply F in I. apply scheme_no_colon in I. apply I. reflexivity.
Qed.
Definition host_text (h : str) : Prop := forall c, In c h -> ends_netloc c = false.
Definition after_host (r : str) : Prop := r = nil \/ exists c t, r = c :: t /\ ends_netloc c = true.
Lemma span_host : forall h r, host_text h -> after_host r -> span_netloc (h ++ r) = (h, r).
Proof.
  induction h as [|c h IH]; intros r H R.
  - destruct R as [->|(c & t & -> & E)]; [reflexivity|]. cbn [app span_netloc]. rewrite E. reflexivity.
  - cbn [app span_netloc]. rewrite (H c) by (left; reflexivity). rewrite IH; [reflexivity| |exact R]. intros d I. apply H. right. exact I.
Qed.
Lemma letter_graphic : forall c, is_letter c = true -> 32 < c.
Proof.
  intros c H. unfold is_letter, is_upper in H. rewrite orb_true_iff, !andb_true_iff, !N.leb_le in H. lia.
Qed.
(** path, query and fragment *)
Definition parts (r : str) : str * str * str := let (a, f) := cut_or HASH r in let (p, q) := cut_or QUESTION a in (p, q, f).
Lemma urlsplit_abs : forall lib d s h r, url_scheme s -> host_text h -> after_host r -> (forall c, In c (s ++ s2l "://" ++ h ++ r) -> unsafe c = false) ->
  urlsplit lib d (s ++ s2l "://" ++ h ++ r) =
  if netloc_ok lib h then let '(p, q, f) := parts r in Ok (mkSplit (lower s) h p q f) else Raise EValue.
Proof.
  intros lib d s h r S H R U. unfold urlsplit. rewrite sanitise_id; [|destruct S as (c & t & -> & L & _); intros x y [= <- _]; apply letter_graphic, L|exact U].
  change (s2l "://") with [58; 47; 47]. cbn [app]. rewrite split_scheme_abs by exact S. cbn [split_netloc]. change ((47 =? SLASH) && (47 =? SLASH)) with true. cbv iota.
  rewrite span_host by assumption. destruct (netloc_ok lib h); [|reflexivity]. unfold parts. destruct (cut_or HASH r) as [a f]. destruct (cut_or QUESTION a) as [p q]. reflexivity.
Qed.
Lemma cut_or_cons : forall sep c t, cut_or sep (c :: t) = if c =? sep then (nil, t) else (c :: fst (cut_or sep t), snd (cut_or sep t)).
Proof. intros sep c t. unfold cut_or. cbn [cut]. destruct (c =? sep); [reflexivity|]. destruct (cut sep t) as [[a b]|]; reflexivity. Qed.
(** the path begins with a slash or is empty *)
Lemma parts_path : forall r p q f, after_host r -> parts r = (p, q, f) -> p = nil \/ exists t, p = 47 :: t.
Proof.
  intros r p q f R H. unfold parts in H. destruct R as [->|(c & t & -> & E)]; [injection H as <- _ _; auto|].
  rewrite cut_or_cons in H. destruct (N.eqb_spec c HASH) as [->|N1]; [injection H as <- _ _; auto|].
  rewrite cut_or_cons in H. destruct (N.eqb_spec c QUESTION) as [->|N2]; [injection H as <- _ _; auto|].
  assert (c = 47) by (unfold ends_netloc in E; rewrite !orb_true_iff, !N.eqb_eq in E; unfold SLASH in *; tauto). subst c.
  injection H as <- _ _. right. eexists. reflexivity.
Qed.
