(** sigstore/_internal/oidc/oauth.py: how long the redirect server lives ([_OAuthFlow], oauth.py:104-135, and the
    [with] statement of oidc.py:299-330).

    The two threads of Oauth.v run inside the server loop of the standard library (socketserver.py
    [BaseServer.serve_forever] and [shutdown]) and inside the [with] statement.  Not modelled: time.  The socket
    of a connection has a timeout of one second (oauth.py:139-140), so that a client which sends nothing ends its
    connection, here a step that is always possible. *)
From Verif Require Import Base Codec Env Json Http Oidc Url Oauth.

Section Life.
Variable env : Env.
Variable ul : Url.UrlLib.
Variable se : Session.
Variable force : bool.
(** how many pieces of a request are read at most: http/server.py and http/client.py limit the length of lines
    (65536) and the number of headers (100) *)
Variable max_reads : nat.

(** the server thread: [serve_forever] *)
Inductive loop_pc : Type :=
| L_new                 (* not started *)
| L_begin               (* before [self.__is_shut_down.clear()] *)
| L_setup               (* the selector is made *)
| L_test                (* at [while not self.__shutdown_request] *)
| L_select              (* in [selector.select(poll_interval)] *)
| L_retest (ready : bool)   (* at [if self.__shutdown_request: break] *)
| L_read (n : nat)      (* a request is read, at most [n] more pieces *)
| L_get                 (* in [do_GET] *)
| L_finally_flag        (* before [self.__shutdown_request = False] *)
| L_finally_event       (* before [self.__is_shut_down.set()] *)
| L_ended.

(** the thread of [identity_token] in the [with] statement *)
Inductive with_pc : Type :=
| W_enter               (* before [self._server_thread.start()], oauth.py:123-126 *)
| W_body                (* oidc.py:302-330 *)
| W_shutdown            (* [self._server.shutdown()], before the flag is set, oauth.py:134 *)
| W_wait                (* [self.__is_shut_down.wait()] *)
| W_join                (* [self._server_thread.join()], oauth.py:135 *)
| W_left.               (* oidc.py:332 or the exception of the body *)

Record life := mkLife {
  lf_world : world;
  lf_loop : loop_pc;
  lf_flag : bool;       (* [__shutdown_request] *)
  lf_event : bool;      (* [__is_shut_down] *)
  lf_with : with_pc
}.
(** oauth.py:105-121: the server listens, the thread is made; a new [threading.Event] is not set *)
Definition lf_init : life := mkLife w_init L_new false false W_enter.

(** steps of Oauth.v by the server thread keep the place of the other thread, its own steps change it *)
Definition by_server (w w' : world) : Prop := wstep env ul se force w w' /\ w_main w' = w_main w.
Definition by_main (w w' : world) : Prop := wstep env ul se force w w' /\ w_main w' <> w_main w.

Inductive lstep : life -> life -> Prop :=
(** oauth.py:123-126 [__enter__] *)
| ls_start : forall w f e, lstep (mkLife w L_new f e W_enter) (mkLife w L_begin f e W_body)
(** oidc.py:302-330; Ctrl-C, or end of input while the code is asked for, leave the body at any time *)
| ls_body : forall w w' l f e, by_main w w' -> lstep (mkLife w l f e W_body) (mkLife w' l f e W_body)
| ls_body_done : forall w l f e r, w_main w = M_done r -> lstep (mkLife w l f e W_body) (mkLife w l f e W_shutdown)
| ls_interrupted : forall w l f e, lstep (mkLife w l f e W_body) (mkLife w l f e W_shutdown)
(** oauth.py:128-135 [__exit__] and socketserver.py [shutdown] *)
| ls_shutdown : forall w l f e, lstep (mkLife w l f e W_shutdown) (mkLife w l true e W_wait)
| ls_waited : forall w l f, lstep (mkLife w l f true W_wait) (mkLife w l f true W_join)
| ls_joined : forall w f e, lstep (mkLife w L_ended f e W_join) (mkLife w L_ended f e W_left)
(** socketserver.py [serve_forever] *)
| ls_clear : forall w f e c, lstep (mkLife w L_begin f e c) (mkLife w L_setup f false c)
| ls_setup : forall w f e c, lstep (mkLife w L_setup f e c) (mkLife w L_test f e c)
| ls_no_selector : forall w f e c, lstep (mkLife w L_setup f e c) (mkLife w L_finally_flag f e c)   (* OSError *)
| ls_test_on : forall w e c, lstep (mkLife w L_test false e c) (mkLife w L_select false e c)
| ls_test_off : forall w e c, lstep (mkLife w L_test true e c) (mkLife w L_finally_flag true e c)
| ls_select : forall w f e c ready, lstep (mkLife w L_select f e c) (mkLife w (L_retest ready) f e c)
| ls_select_bad : forall w f e c, lstep (mkLife w L_select f e c) (mkLife w L_finally_flag f e c)   (* OSError *)
| ls_retest_off : forall w e c ready, lstep (mkLife w (L_retest ready) true e c) (mkLife w L_finally_flag true e c)
| ls_retest_ready : forall w e c, lstep (mkLife w (L_retest true) false e c) (mkLife w (L_read max_reads) false e c)
| ls_retest_idle : forall w e c, lstep (mkLife w (L_retest false) false e c) (mkLife w L_test false e c)
| ls_no_connection : forall w e c, lstep (mkLife w (L_retest true) false e c) (mkLife w L_test false e c)   (* the client has gone *)
(** a client sends a piece of its request; the request is complete, too long, or nothing comes for a second *)
| ls_read : forall w f e c n, lstep (mkLife w (L_read (S n)) f e c) (mkLife w (L_read n) f e c)
| ls_request : forall w f e c n, lstep (mkLife w (L_read n) f e c) (mkLife w L_get f e c)
(** oauth.py:145-181 [do_GET]; exceptions are reported and the loop goes on *)
| ls_get : forall w w' f e c, by_server w w' -> w_server w' <> S_idle -> lstep (mkLife w L_get f e c) (mkLife w' L_get f e c)
| ls_answered : forall w w' f e c, by_server w w' -> w_server w' = S_idle -> lstep (mkLife w L_get f e c) (mkLife w' L_test f e c)
| ls_finally_flag : forall w f e c, lstep (mkLife w L_finally_flag f e c) (mkLife w L_finally_event false e c)
| ls_finally_event : forall w f e c, lstep (mkLife w L_finally_event f e c) (mkLife w L_ended f true c).

Inductive lsteps : nat -> life -> life -> Prop :=
| lsteps_0 : forall l, lsteps 0 l l
| lsteps_S : forall n l l1 l2, lstep l l1 -> lsteps n l1 l2 -> lsteps (S n) l l2.
(** what can happen *)
Definition lrun (l : life) : Prop := exists n, lsteps n lf_init l.
End Life.
