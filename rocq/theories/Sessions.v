(** The HTTP sessions behind the clients of a signing context, used by several threads:
    sigstore/_internal/rekor/client.py, client_v2.py, sigstore/_internal/timestamp.py and
    sigstore/_internal/fulcio/client.py. *)
From Verif Require Import Base.

(** The clients of a [SigningContext] (sign.py:277-304): the certificate authority, the log, and the
    timestamp authorities in the order of the configuration *)
Inductive client : Type := Fulcio | Rekor | Tsa (n : nat).
Definition client_eqb (a b : client) : bool :=
  match a, b with
  | Fulcio, Fulcio => true
  | Rekor, Rekor => true
  | Tsa n, Tsa m => Nat.eqb n m
  | _, _ => false
  end.

(** [requests.structures.CaseInsensitiveDict], and its [update] with one header.  Simplified: the names
    used here are compared as they are. *)
Definition headers := list (str * str).
Definition set_header (h : headers) (kv : str * str) : headers :=
  kv :: filter (fun x => negb (str_eqb (fst x) (fst kv))) h.
Definition update (h new : headers) : headers := fold_left set_header new h.
Fixpoint header (h : headers) (k : str) : option str :=
  match h with
  | nil => None
  | (k', v) :: r => if str_eqb k' k then Some v else header r k
  end.

(** A [requests.Session]: its headers, and what it remembers of the answers it received (cookies,
    redirects, connections).  Simplified: it remembers whole answers. *)
Record Session := mkSession { ss_headers : headers; ss_memory : list bytes }.

(** What is sent: headers, anything that can be derived from the session's memory, and the payload *)
Record request := mkRequest { rq_client : client; rq_headers : headers; rq_memory : list bytes; rq_payload : bytes }.

(** What happens, in order: a thread sends a request through a session (numbered in the order of
    creation), a thread receives an answer *)
Inductive traffic : Type :=
| Sent (thread : nat) (session : nat) (r : request)
| Got (thread : nat) (c : client) (answer : bytes).

(** What one thread sees of it *)
Inductive seen : Type := SawSent (r : request) | SawGot (c : client) (answer : bytes).
Fixpoint view (t : nat) (l : list traffic) : list seen :=
  match l with
  | nil => nil
  | Sent t' _ r :: rest => if Nat.eqb t' t then SawSent r :: view t rest else view t rest
  | Got t' c a :: rest => if Nat.eqb t' t then SawGot c a :: view t rest else view t rest
  end.

(** Where a thread is in [client._session.post(payload)] *)
Inductive place : Type :=
| Idle                                      (* before the next call *)
| AtNew (c : client) (p : bytes)              (* [hasattr] said no; before [requests.Session()] *)
| AtUpdate (c : client) (p : bytes) (s : nat) (* before [session.headers.update] *)
| AtStore (c : client) (p : bytes) (s : nat)  (* before [self._thread_local.session = session] *)
| AtRead (c : client) (p : bytes)             (* before [return self._thread_local.session] *)
| AtSend (c : client) (p : bytes) (s : nat)   (* before the request leaves *)
| AtWait (c : client) (s : nat).              (* before the answer arrives *)

(** All threads: the sessions that exist, the attribute [session] of each client's
    [threading.local()] as each thread sees it, where each thread is, and the traffic *)
Record threads_state := mkTS {
  ts_sessions : list Session;
  ts_local : client -> nat -> option nat;
  ts_place : nat -> place;
  ts_traffic : list traffic
}.

Definition set_local (f : client -> nat -> option nat) (c : client) (t s : nat) : client -> nat -> option nat :=
  fun c' t' => if client_eqb c' c && Nat.eqb t' t then Some s else f c' t'.
Definition set_place (f : nat -> place) (t : nat) (p : place) : nat -> place := fun t' => if Nat.eqb t' t then p else f t'.
Fixpoint set_session (l : list Session) (i : nat) (s : Session) : list Session :=
  match l, i with
  | nil, _ => nil
  | _ :: r, 0 => s :: r
  | x :: r, S i' => x :: set_session r i' s
  end.

Section Threads.
(** [requests.Session().headers] and [USER_AGENT] (_internal/__init__.py:26) *)
Variable default_headers : headers.
Variable user_agent : str.
(** What each thread calls next, given what it has seen; [None]: nothing more *)
Variable next : nat -> list seen -> option (client * bytes).
(** What each thread is answered *)
Variable answer : nat -> list seen -> bytes.

(** rekor/client.py:250-256, rekor/client_v2.py:68-74, timestamp.py:81-86 and fulcio/client.py:169-173 *)
Definition client_headers (c : client) : headers :=
  match c with
  | Rekor => [(s2l "Content-Type", s2l "application/json"); (s2l "Accept", s2l "application/json"); (s2l "User-Agent", user_agent)]
  | Tsa _ => [(s2l "Content-Type", s2l "application/timestamp-query"); (s2l "User-Agent", user_agent)]
  | Fulcio => [(s2l "User-Agent", user_agent)]
  end.

(** [requests.Session()] *)
Definition new_session : Session := mkSession default_headers nil.

(** The clients have been made: fulcio/client.py:164-173 makes its session at once; rekor/client.py:225,
    client_v2.py:59 and timestamp.py:72 make an empty [threading.local()] *)
Definition start : threads_state :=
  mkTS [mkSession (update default_headers (client_headers Fulcio)) nil] (fun _ _ => None) (fun _ => Idle) nil.

Definition at_place (y : threads_state) (t : nat) (p : place) : threads_state :=
  mkTS (ts_sessions y) (ts_local y) (set_place (ts_place y) t p) (ts_traffic y).
Definition the_session (y : threads_state) (s : nat) : Session := nth s (ts_sessions y) new_session.

(** One step of thread [t]: rekor/client.py:243-258, client_v2.py:61-76, timestamp.py:74-88 (property
    [_session]); fulcio/client.py:181-188 uses the one session; client.py:149, client_v2.py:91,
    timestamp.py:116 and fulcio/client.py:105 post *)
Definition turn (y : threads_state) (t : nat) : threads_state :=
  match ts_place y t with
  | Idle =>
    match next t (view t (ts_traffic y)) with
    | None => y
    | Some (Fulcio, p) => at_place y t (AtSend Fulcio p 0)
    | Some (c, p) =>
      match ts_local y c t with
      | None => at_place y t (AtNew c p)
      | Some _ => at_place y t (AtRead c p)
      end
    end
  | AtNew c p =>
    mkTS (ts_sessions y ++ [new_session]) (ts_local y) (set_place (ts_place y) t (AtUpdate c p (length (ts_sessions y)))) (ts_traffic y)
  | AtUpdate c p s =>
    let x := the_session y s in
    mkTS (set_session (ts_sessions y) s (mkSession (update (ss_headers x) (client_headers c)) (ss_memory x)))
         (ts_local y) (set_place (ts_place y) t (AtStore c p s)) (ts_traffic y)
  | AtStore c p s =>
    mkTS (ts_sessions y) (set_local (ts_local y) c t s) (set_place (ts_place y) t (AtRead c p)) (ts_traffic y)
  | AtRead c p =>
    match ts_local y c t with
    | Some s => at_place y t (AtSend c p s)
    | None => y
    end
  | AtSend c p s =>
    let x := the_session y s in
    mkTS (ts_sessions y) (ts_local y) (set_place (ts_place y) t (AtWait c s))
         (ts_traffic y ++ [Sent t s (mkRequest c (ss_headers x) (ss_memory x) p)])
  | AtWait c s =>
    let x := the_session y s in
    let a := answer t (view t (ts_traffic y)) in
    mkTS (set_session (ts_sessions y) s (mkSession (ss_headers x) (ss_memory x ++ [a])))
         (ts_local y) (set_place (ts_place y) t Idle) (ts_traffic y ++ [Got t c a])
  end.

(** Threads take turns in any order *)
Definition run (schedule : list nat) : threads_state := fold_left turn schedule start.
End Threads.
