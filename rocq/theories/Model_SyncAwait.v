(** runtime/sync_await.py, together with the part of CPython's event loop
    (asyncio/base_events.py, asyncio/tasks.py) it cooperates with *)
From Verif Require Import Base.

(** An entry of the loop's ready queue: a callback that will run, or a cancelled
    handle that will be skipped. *)
Inductive handle : Type := Real (n : nat) | Dead.

(** What is being executed, innermost first. *)
Inductive frame : Type :=
| Once (todo : nat)
    (* [BaseEventLoop._run_once], with [todo] more handles to take from the queue *)
| Body (n : nat)
    (* the callback [n] *)
| Wait (f ntodo : nat) (pumped : bool) (task : option nat).
    (* [_sync_await] of the future [f], sync_await.py:39-86: its [ntodo], whether the loop was
       pumped already, and its [task] *)

Record lstate : Type := mkLoop {
  l_stack : list frame;          (* the bottom is [run_forever] *)
  l_ready : list handle;
  l_log : list nat;              (* the callbacks started so far, in order *)
  l_spawned : list nat;          (* all callbacks ever scheduled, in order *)
  l_cancelled : list nat;        (* those whose handle was cancelled *)
  l_done : list nat;             (* the futures that are done *)
  l_stopping : bool;
  l_current : option nat }.      (* the current task *)

Definition initial : lstate := mkLoop [] [] [] [] [] [] false None.

(** sync_await.py:75-78: make up for handles taken from the queue. *)
Definition padded (ntodo : nat) (ready : list handle) : list handle :=
  ready ++ repeat Dead (ntodo - length ready).
Definition cancel (n : nat) (h : handle) : handle :=
  match h with Real m => if Nat.eqb n m then Dead else h | Dead => Dead end.

(** [_enter_task(loop, task)] raises if there is a current task, [_leave_task(loop, task)] if
    that is another one (asyncio/tasks.py). *)
Definition enter (t : option nat) (current : option nat) : option (option nat) :=
  match t with
  | None => Some current
  | Some _ => match current with None => Some t | Some _ => None end
  end.
Definition leave (t : option nat) (current : option nat) : option (option nat) :=
  match t with
  | None => Some current
  | Some a => match current with Some b => if Nat.eqb a b then Some None else None | None => None end
  end.

(** One step.  [task_of n] is the task the callback [n] is a step of, if any.  What
    callbacks do besides waiting, and what other threads do, is arbitrary: they
    schedule callbacks, cancel handles, complete futures, stop the loop.
    Simplifications: [_run_once] begins by moving due timers and ready sockets' handles
    to the queue, which is scheduling here; callbacks end normally (asyncio catches
    their exceptions). *)
Inductive lstep (task_of : nat -> option nat) : lstate -> lstate -> Prop :=
(** [run_forever]: the next round. *)
| L_round rd lg sp ca dn cu :
    lstep task_of (mkLoop [] rd lg sp ca dn false cu) (mkLoop [Once (length rd)] rd lg sp ca dn false cu)
(** [_run_once]: [handle = self._ready.popleft()]; cancelled handles are skipped, others
    run. *)
| L_skip k S rd lg sp ca dn st cu :
    lstep task_of (mkLoop (Once (Datatypes.S k) :: S) (Dead :: rd) lg sp ca dn st cu) (mkLoop (Once k :: S) rd lg sp ca dn st cu)
| L_run k S n rd lg sp ca dn st cu cu' :
    enter (task_of n) cu = Some cu' ->
    lstep task_of (mkLoop (Once (Datatypes.S k) :: S) (Real n :: rd) lg sp ca dn st cu)
                  (mkLoop (Body n :: Once k :: S) rd (lg ++ [n]) sp ca dn st cu')
| L_once_ends S rd lg sp ca dn st cu :
    lstep task_of (mkLoop (Once 0 :: S) rd lg sp ca dn st cu) (mkLoop S rd lg sp ca dn st cu)
(** A callback ends. *)
| L_return n S rd lg sp ca dn st cu cu' :
    leave (task_of n) cu = Some cu' ->
    lstep task_of (mkLoop (Body n :: S) rd lg sp ca dn st cu) (mkLoop S rd lg sp ca dn st cu')
(** sync_await.py:46-68: a callback starts waiting; the current task is left. *)
| L_wait n f S rd lg sp ca dn st cu :
    lstep task_of (mkLoop (Body n :: S) rd lg sp ca dn st cu)
                  (mkLoop (Wait f (length rd) false cu :: Body n :: S) rd lg sp ca dn st None)
(** sync_await.py:69-72: pump the loop, unless the future is done, or the loop is stopping
    after the first time. *)
| L_pump f nt p t S rd lg sp ca dn st cu :
    nmem f dn = false -> p && st = false ->
    lstep task_of (mkLoop (Wait f nt p t :: S) rd lg sp ca dn st cu)
                  (mkLoop (Once (length rd) :: Wait f nt true t :: S) rd lg sp ca dn st cu)
(** sync_await.py:75-86: fix the queue up, enter the task again and return. *)
| L_resume f nt p t S rd lg sp ca dn st cu cu' :
    nmem f dn || (p && st) = true -> enter t cu = Some cu' ->
    lstep task_of (mkLoop (Wait f nt p t :: S) rd lg sp ca dn st cu)
                  (mkLoop S (padded nt rd) lg sp ca dn st cu')
(** The callback, another thread, a timer or a socket. *)
| L_schedule n S rd lg sp ca dn st cu :
    ~ In n sp -> lstep task_of (mkLoop S rd lg sp ca dn st cu) (mkLoop S (rd ++ [Real n]) lg (sp ++ [n]) ca dn st cu)
| L_cancel n S rd lg sp ca dn st cu :
    In (Real n) rd -> lstep task_of (mkLoop S rd lg sp ca dn st cu) (mkLoop S (map (cancel n) rd) lg sp (n :: ca) dn st cu)
| L_done f S rd lg sp ca dn st cu :
    lstep task_of (mkLoop S rd lg sp ca dn st cu) (mkLoop S rd lg sp ca (f :: dn) st cu)
| L_stop S rd lg sp ca dn st cu :
    lstep task_of (mkLoop S rd lg sp ca dn st cu) (mkLoop S rd lg sp ca dn true cu).
