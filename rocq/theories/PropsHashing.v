(** Property C44: digests of inputs (sha256_digest). *)
From Verif Require Import Base Messages Env Dsse Hashing ToyEnv.

(** ** Specification: a stream that only reports "nothing read" at its end.  Short reads
    of any size, different at each position, are allowed. *)
Definition blocking (s : stream) : Prop := forall r, r <> nil -> s_next s r <> None.

Lemma readinto_spec : forall s view n view' s', readinto s view = (n, view', s') ->
  n <= length view /\ n <= length (s_rest s) /\ length view' = length view /\
  firstn n view' = firstn n (s_rest s) /\ s_rest s' = skipn n (s_rest s) /\ s_next s' = s_next s /\
  (n = 0 -> view <> nil -> s_rest s <> nil -> s_next s (s_rest s) = None).
Proof.
  intros s view n view' s' H. unfold readinto in H.
  set (m := match s_next s (s_rest s) with None => 0 | Some p => Nat.min (Pos.to_nat p) (Nat.min (length view) (length (s_rest s))) end) in H.
  assert (Em : m = match s_next s (s_rest s) with None => 0 | Some p => Nat.min (Pos.to_nat p) (Nat.min (length view) (length (s_rest s))) end) by reflexivity.
  clearbody m. inversion H; subst n view' s'; clear H. cbn [s_rest s_next].
  assert (m <= length view /\ m <= length (s_rest s)) as [A B] by (subst m; destruct (s_next s (s_rest s)); lia).
  repeat split; try assumption.
  - rewrite app_length, firstn_length, skipn_length. lia.
  - rewrite firstn_app, firstn_length, firstn_firstn. replace (m - _) with 0 by lia.
    rewrite firstn_O, app_nil_r. f_equal. lia.
  - intros E0 V R. destruct (s_next s (s_rest s)) as [p|]; [|reflexivity].
    exfalso. assert (length view <> 0) by (destruct view; cbn; congruence).
    assert (length (s_rest s) <> 0) by (destruct (s_rest s); cbn; congruence).
    pose proof (Pos2Nat.is_pos p). lia.
Qed.

Lemma stream_loop_reads_all : forall fuel h n view s,
  blocking s -> view <> nil -> n <= length view -> (n = 0 -> s_rest s = nil) -> length (s_rest s) < fuel ->
  stream_loop fuel h n view s = h ++ firstn n view ++ s_rest s.
Proof.
  induction fuel as [|fuel IH]; intros h n view s B V L Z F; [lia|].
  destruct n as [|n].
  - cbn [stream_loop firstn app]. rewrite (Z eq_refl), app_nil_r. reflexivity.
  - cbn [stream_loop]. destruct (readinto s view) as [[n' view'] s'] eqn:R.
    apply readinto_spec in R. destruct R as (A & C & L' & P & Rest & Nx & Zr).
    assert (V' : view' <> nil) by (destruct view'; [cbn in L'; destruct view; [congruence|discriminate]|discriminate]).
    assert (Z' : n' = 0 -> s_rest s' = nil).
    { intros ->. rewrite Rest. destruct (s_rest s) eqn:E; [reflexivity|].
      exfalso. refine (B _ _ (Zr eq_refl V _)); rewrite ?E; discriminate. }
    destruct n' as [|n'].
    + assert (SL : forall f x, stream_loop f x 0 view' s' = x) by (intros [|f] x; reflexivity).
      rewrite SL. assert (E : s_rest s = nil) by (rewrite (Z' eq_refl) in Rest; symmetry; assumption).
      rewrite E, app_nil_r. reflexivity.
    + rewrite IH.
      * rewrite P, Rest, <- app_assoc, firstn_skipn. reflexivity.
      * intros r Hr. rewrite Nx. apply B. assumption.
      * assumption.
      * lia.
      * assumption.
      * rewrite Rest, skipn_length. lia.
Qed.

Lemma stream_loop_prefix : forall fuel h n view s, n <= length view ->
  exists k, stream_loop fuel h n view s = h ++ firstn n view ++ firstn k (s_rest s) \/
            (stream_loop fuel h n view s = h).
Proof.
  induction fuel as [|fuel IH]; intros h n view s L.
  - exists 0. right. destruct n; reflexivity.
  - destruct n as [|n]; [exists 0; right; reflexivity|].
    cbn [stream_loop]. destruct (readinto s view) as [[n' view'] s'] eqn:R.
    apply readinto_spec in R. destruct R as (A & C & L' & P & Rest & Nx & Zr).
    assert (L2 : n' <= length view') by lia.
    destruct (IH (h ++ firstn (S n) view) n' view' s' L2) as [k [E|E]].
    + exists (n' + k). left. rewrite E, P, Rest, <- !app_assoc. f_equal. f_equal.
      rewrite <- (firstn_skipn n' (s_rest s)) at 3. rewrite firstn_app, firstn_firstn, firstn_length.
      replace (Nat.min (n' + k) n') with n' by lia. replace (n' + k - _) with k by lia. reflexivity.
    + exists 0. left. rewrite E. rewrite firstn_O, app_nil_r. reflexivity.
Qed.

(** ** C44: the digest of a stream is the digest of its contents, whatever the sizes of
    the individual reads and of the buffer. *)
Theorem C44_any_buffer_size : forall env size s, (0 < size)%N -> blocking s ->
  sha256_streaming_with env size s = e_hash env SHA256 (s_rest s).
Proof.
  intros env size s Hs B. unfold sha256_streaming_with.
  assert (V : repeat x00 (N.to_nat size) <> nil) by (destruct (N.to_nat size) eqn:E; [lia|discriminate]).
  set (view := repeat x00 (N.to_nat size)) in *. clearbody view.
  destruct (readinto s view) as [[n view'] s'] eqn:R.
  apply readinto_spec in R. destruct R as (A & C & L' & P & Rest & Nx & Zr).
  rewrite stream_loop_reads_all.
  - cbn [app]. rewrite P, Rest, firstn_skipn. reflexivity.
  - intros r Hr. rewrite Nx. apply B. assumption.
  - destruct view'; [destruct view; [congruence|discriminate]|discriminate].
  - lia.
  - intros ->. rewrite Rest. destruct (s_rest s) eqn:E; [reflexivity|].
    exfalso. refine (B _ _ (Zr eq_refl V _)); rewrite ?E; discriminate.
  - rewrite Rest, skipn_length. lia.
Qed.

Theorem C44_stream_digest : forall env s, blocking s ->
  sha256_digest env (In_stream s) = sha256_digest env (In_bytes (s_rest s)).
Proof.
  intros env s B. unfold sha256_digest, sha256_streaming. rewrite C44_any_buffer_size; [reflexivity|reflexivity|assumption].
Qed.

Theorem C44_bytes_digest : forall env b,
  sha256_digest env (In_bytes b) = mkHashed HA_SHA2_256 (e_hash env SHA256 b).
Proof. reflexivity. Qed.

(** A precomputed hash is taken as it is, whatever its algorithm. *)
Theorem C44_hashed_is_returned : forall env h, sha256_digest env (In_hashed h) = h.
Proof. reflexivity. Qed.

(** With any stream the digest covers a prefix of the contents and nothing else
    (no stale buffer content). *)
Theorem C44_always_a_prefix : forall env s, exists k,
  sha256_digest env (In_stream s) = sha256_digest env (In_bytes (firstn k (s_rest s))).
Proof.
  intros env s. unfold sha256_digest, sha256_streaming, sha256_streaming_with.
  set (view := repeat x00 (N.to_nat BUFFER_SIZE)). clearbody view.
  destruct (readinto s view) as [[n view'] s'] eqn:R.
  apply readinto_spec in R. destruct R as (A & C & L' & P & Rest & Nx & Zr).
  assert (L2 : n <= length view') by lia.
  destruct (stream_loop_prefix (S (length (s_rest s))) nil n view' s' L2) as [k [E|E]].
  - exists (n + k). rewrite E. cbn [app]. rewrite P, Rest. f_equal. f_equal.
    rewrite <- (firstn_skipn n (s_rest s)) at 3. rewrite firstn_app, firstn_firstn, firstn_length.
    replace (Nat.min (n + k) n) with n by lia. replace (n + k - _) with k by lia. reflexivity.
  - exists 0. rewrite E. reflexivity.
Qed.

(** ** A stream that has temporarily nothing to read is digested as if it had ended. *)
Definition hx_stream : stream :=
  mkStream (s2b "abc") (fun r => if Nat.eqb (length r) 2 then None else Some 1%positive).
Theorem C44_interrupted_stream_refuted :
  exists env s, ~ blocking s /\
    sha256_streaming_with env 4 s = e_hash env SHA256 (s2b "a") /\ s_rest s = s2b "abc" /\
    sha256_streaming_with env 4 s <> e_hash env SHA256 (s_rest s).
Proof.
  exists (toy_env nil), hx_stream. split; [intros B; exact (B [x61; x62] ltac:(discriminate) eq_refl)|].
  split; [vm_compute; reflexivity|]. split; [reflexivity|]. vm_compute. discriminate.
Qed.

(** ** Concrete case: irregular short reads through a 4 byte buffer *)
Definition hx_short : stream :=
  mkStream (s2b "hello, world") (fun r => Some (Pos.of_nat (S (Nat.modulo (length r) 3)))).
Example ex_short_blocking : blocking hx_short.
Proof. intros r _. discriminate. Qed.
Example ex_short : sha256_streaming_with (toy_env nil) 4 hx_short = toy_hash (s2b "hello, world").
Proof. vm_compute. reflexivity. Qed.

Print Assumptions C44_any_buffer_size.
Print Assumptions C44_stream_digest.
Print Assumptions C44_always_a_prefix.
Print Assumptions C44_interrupted_stream_refuted.
