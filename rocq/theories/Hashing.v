(** sigstore/_utils.py: digests of inputs. *)
From Verif Require Import Base Messages Env Dsse.

(** A binary stream: what is left to read, and how many bytes the next raw read is
    willing to return (reads may be short).  [None] models a read that returns [None]
    or 0 before the end of the stream, as a non-blocking stream does. *)
Record stream := mkStream { s_rest : bytes; s_next : bytes -> option positive }.

(** [io.readinto(view)] (called at _utils.py:203-206): fill a prefix of the buffer, leave
    the rest of it as it was, return the number of bytes read. *)
Definition readinto (s : stream) (view : bytes) : nat * bytes * stream :=
  let n := match s_next s (s_rest s) with
           | None => 0
           | Some p => Nat.min (Pos.to_nat p) (Nat.min (length view) (length (s_rest s)))
           end in
  (n, firstn n (s_rest s) ++ skipn n view, mkStream (skipn n (s_rest s)) (s_next s)).

(** _utils.py:204-207 [while nbytes]; [h] is what the hash object has been fed so far.
    [fuel] bounds the number of iterations; [sha256_streaming] supplies enough of it
    (lemma [stream_loop_reads_all] in PropsHashing.v). *)
Fixpoint stream_loop (fuel : nat) (h : bytes) (nbytes : nat) (view : bytes) (s : stream) : bytes :=
  match nbytes, fuel with
  | O, _ | _, O => h
  | _, S fuel' =>
    let h' := h ++ firstn nbytes view in
    let '(n', view', s') := readinto s view in
    stream_loop fuel' h' n' view' s'
  end.

(** _utils.py:201: [bytearray(128 * 1024)] *)
Definition BUFFER_SIZE : N := 131072.

Section Hashing.
Variable env : Env.

(** _utils.py:179-209 [_sha256_streaming], with the buffer size as a parameter *)
Definition sha256_streaming_with (size : N) (s : stream) : bytes :=
  let view := repeat x00 (N.to_nat size) in
  let '(n, view', s') := readinto s view in
  e_hash env SHA256 (stream_loop (S (length (s_rest s))) nil n view' s').

Definition sha256_streaming (s : stream) : bytes := sha256_streaming_with BUFFER_SIZE s.

(** _utils.py:157-159: the accepted inputs *)
Inductive input : Type :=
| In_hashed (h : Hashed)
| In_bytes (b : bytes)
| In_stream (s : stream).

(** _utils.py:157-176 [sha256_digest] *)
Definition sha256_digest (i : input) : Hashed :=
  match i with
  | In_hashed h => h
  | In_bytes b => mkHashed HA_SHA2_256 (e_hash env SHA256 b)
  | In_stream s => mkHashed HA_SHA2_256 (sha256_streaming s)
  end.
End Hashing.
