(** Commands that do not come to their end: a process may be killed at any time, and what it has done to the
    file system by then stays.  The states in which it can be killed. *)
From Verif Require Import Base Codec Messages Env Json Http Bundle RekorClient Tuf CliVerify Sign CliSign CliMain.

(** _cli.py:748-811 [_sign_common]: the file systems between the preparation and the end, under a schedule that
    need not finish the jobs.  Writing happens in the jobs only.  Simplified: what is buffered and not yet
    written counts as not written, and nothing is reordered by the operating system. *)
Inductive common_moment (tl : Tools) (a : CommonArgs) (predicate : option (str * json)) (h0 : history)
  : tree * res OutputMap -> list act -> tree -> Prop :=
| Mo_prepared : forall t r, common_moment tl a predicate h0 (t, r) nil t
| Mo_jobs : forall t m h s sched, setup tl a t h0 = (h, Ok s) ->
    common_moment tl a predicate h0 (t, Ok m) sched (y_tree (sys_run tl s predicate (jobs_of m) sched (sys_start (jobs_of m) t h))).

(** _cli.py:867-943 [_sign].  Simplified: the directories that the preparation creates appear at once. *)
Definition sign_moment (tl : Tools) (a : SignArgs) (t0 : tree) (h0 : history) (sched : list act) (t : tree) : Prop :=
  (sched = nil /\ t = t0) \/ common_moment tl (sa_common a) None h0 (sign_prepare tl a t0) sched t.
(** _cli.py:812-865 [_attest] *)
Definition attest_moment (tl : Tools) (a : AttestArgs) (t0 : tree) (h0 : history) (sched : list act) (t : tree) : Prop :=
  (sched = nil /\ t = t0) \/
  let '(t1, r) := attest_prepare tl a t0 in
  match r with
  | Raise e => common_moment tl (aa_common a) None h0 (t1, Raise e) sched t
  | Ok (m, j) => common_moment tl (aa_common a) (Some (aa_predicate_type a, j)) h0 (t1, Ok m) sched t
  end.

(** _cli.py:1307-1343 [_fix_bundle]: with [--in-place], [write_text] opens the file, which empties it, and
    writes the text; [n]: how many bytes have been written *)
Inductive fix_moment (env : Env) (tl : Tools) (http : http_request EntryRequest -> res response)
  (staging upgrade_version in_place : bool) (bundle : path) (t : tree) : tree -> Prop :=
| Fx_reading : fix_moment env tl http staging upgrade_version in_place bundle t t
| Fx_writing : forall raw m b t1 n, in_place = true ->
    file_bytes (world_at tl t) bundle = Ok raw -> w_parse_bundle (tl_world tl) raw = Ok m ->
    fix_bundle env (fun i => entries_get (w_rp (tl_world tl)) http (if staging then REKOR_STAGING else REKOR_PRODUCTION) None (Some i))
      upgrade_version m = Ok b ->
    open_w t (loc tl bundle) = (t1, Ok tt) ->
    fix_moment env tl http staging upgrade_version in_place bundle t
      (write_at t1 (loc tl bundle) 0 (firstn n (tl_to_json tl (b_inner b)))).
