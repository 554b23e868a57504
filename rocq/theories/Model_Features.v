(** runtime/settings.py: asking the engine which features it supports *)
From Verif Require Import Base.
Open Scope string_scope.

(** How the SupportsFeature call ends: a response, or a gRPC error with its
    status code and details. *)
Inductive reply : Type :=
| RSupport (has_support : bool)
| RError (code details : string).

(** runtime/settings.py:254-272 [grpc_error_to_exception], [handle_grpc_error]. *)
Definition grpc_error_to_exception (code details : string) : exn :=
  if String.eqb code "UNAVAILABLE"
  then Exn "RunError" "Resource monitor has terminated, shutting down"
  else Exn "Exception" details.

(** runtime/settings.py:236-246 [do_rpc_call], run in a thread. *)
Definition do_rpc_call (r : reply) : res bool :=
  match r with
  | RSupport b => Ok b
  | RError code details =>
      if negb (String.eqb code "UNIMPLEMENTED") then Err (grpc_error_to_exception code details) else Ok false
  end.

(** What can be observed: query number [q] for a feature starts, the engine is
    contacted for it, the engine's reply arrives, the query returns. *)
Inductive obs : Type :=
| Asked (q : nat) (f : string)
| Called (q : nat) (f : string)
| Replied (q : nat) (r : reply)
| Answered (q : nat) (f : string) (a : res bool).

(** [f_cache] is SETTINGS.feature_support; [f_sent] are the calls running in
    the executor; [f_ready] the queries whose call has ended and whose
    coroutine has not been resumed yet; [f_trace] is what happened, latest
    first.  Simplification: SETTINGS is not replaced meanwhile. *)
Record fstate : Type := mkF {
  f_cache : dict bool;
  f_sent : list (nat * string);
  f_ready : list (nat * string * res bool);
  f_next : nat;
  f_trace : list obs }.
Definition finit : fstate := mkF [] [] [] 0 [].

(** runtime/settings.py:228-235, 248, 251 [monitor_supports_feature] up to its
    first suspension; [monitor] tells whether there is a monitor. *)
Definition ask (monitor : bool) (s : fstate) (f : string) : fstate :=
  let q := f_next s in
  match dget (f_cache s) f with
  | Some b => mkF (f_cache s) (f_sent s) (f_ready s) (S q) (Answered q f (Ok b) :: Asked q f :: f_trace s)
  | None =>
      if monitor
      then mkF (f_cache s) ((q, f) :: f_sent s) (f_ready s) (S q) (Called q f :: Asked q f :: f_trace s)
      else mkF (f_cache s) (f_sent s) (f_ready s) (S q) (Answered q f (Ok false) :: Asked q f :: f_trace s)
  end.

(** runtime/settings.py:249-251: the coroutine continues. *)
Definition resume (s : fstate) (q : nat) (f : string) (r : res bool) : fstate :=
  match r with
  | Ok b => mkF (dset (f_cache s) f b) (f_sent s) (f_ready s) (f_next s) (Answered q f (Ok b) :: f_trace s)
  | Err e => mkF (f_cache s) (f_sent s) (f_ready s) (f_next s) (Answered q f (Err e) :: f_trace s)
  end.

(** One step: a query starts, a call ends, or a query is resumed; calls end
    and queries are resumed in any order. *)
Inductive fstep (monitor : bool) (s : fstate) : fstate -> Prop :=
| fs_ask f : fstep monitor s (ask monitor s f)
| fs_reply l1 q f l2 r : f_sent s = (l1 ++ (q, f) :: l2)%list ->
    fstep monitor s (mkF (f_cache s) (l1 ++ l2)%list ((q, f, do_rpc_call r) :: f_ready s) (f_next s) (Replied q r :: f_trace s))
| fs_resume l1 q f r l2 : f_ready s = (l1 ++ (q, f, r) :: l2)%list ->
    fstep monitor s (resume (mkF (f_cache s) (f_sent s) (l1 ++ l2)%list (f_next s) (f_trace s)) q f r).
Inductive freach (monitor : bool) : fstate -> Prop :=
| fr_init : freach monitor finit
| fr_step s s' : freach monitor s -> fstep monitor s s' -> freach monitor s'.
