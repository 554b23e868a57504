(** The end of a program: runtime/stack.py [run_pulumi_func] and [wait_for_rpcs]
    with all the tasks of the event loop, and log.py, whose messages for
    resources are such tasks. *)
From Verif Require Import Base Model_RpcManager.
Open Scope string_scope.
Open Scope list_scope.

(** proto/pulumi/engine.proto:39-44, 46-66. *)
Inductive severity : Type := Debug | Info | Warning | Error.
Record request : Type := mkRequest { q_severity : severity; q_message : string; q_urn : string; q_stream : Z; q_ephemeral : bool }.

(** A call of log.py:29-111 [debug], [info], [warn] or [error]. *)
Record message : Type := mkMessage {
  g_severity : severity; g_text : string; g_resource : option nat; g_stream : option Z; g_ephemeral : option bool }.
(** log.py:115-116 and 125-131, 137-143 (an unset [ephemeral] is false on the wire). *)
Definition request_of (m : message) (urn : string) : request :=
  mkRequest (g_severity m) (g_text m) urn (match g_stream m with None => 0%Z | Some n => n end)
    (match g_ephemeral m with None => false | Some b => b end).
(** log.py:44-45, 62-66, 83-87, 107-111: without an engine; the text printed, if any. *)
Definition shown_without_engine (m : message) : list string :=
  match g_severity m with
  | Debug => []
  | Info => ["info: " ++ g_text m]%string
  | Warning => ["warning: " ++ g_text m]%string
  | Error => ["error: " ++ g_text m]%string
  end.

(** How a task ends. *)
Inductive task_end : Type := Fine | Failed (e : exn) | Cancelled.

(** The tasks of the loop other than the one that runs [run_pulumi_func] and the
    RPCs: functions given to [apply] (output.py:232), awaitables given as inputs, the
    wrappers of RPCs, and messages (log.py:134; the message is given).  [l_waiting]: the
    tasks given to [asyncio.wait] (stack.py:93), while it waits.  [l_cancelled]: the
    tasks asked to end (stack.py:97-102).  [l_sent]: what the engine was sent; [l_printed]: what was
    printed on stderr. *)
Record lstate : Type := mkL {
  l_m : mstate;
  l_tasks : list (option message * option task_end);
  l_waiting : option (list nat);
  l_cancelled : list nat;
  l_sent : list request;
  l_printed : list string
}.
Definition loop_start : lstate := mkL start_state [] None [] [] [].

(** What happens.  [Say], [StartTask], [StartRpc]: the program, or some task,
    logs a message, starts a task, starts an RPC.  [EndRpc], [Wrapper]: an RPC ends; its
    wrapper notices (rpc_manager.py:62-79).  [EndTask]: a task ends.  The others are the steps of
    [wait_for_rpcs]: [Begin] its start; [Pop] (stack.py:69-73); [Awaited] the RPC
    awaited has ended; [Look] it looks for tasks (stack.py:85-95); [Woken] [asyncio.wait]
    returns, and the task given, if any, is the first in the set [done] that did not succeed. *)
Inductive happening : Type :=
| Say (m : message)
| StartTask
| StartRpc
| EndRpc (i : nat) (r : res nat)
| Wrapper
| EndTask (t : nat) (o : task_end)
| Begin
| Pop
| Awaited
| Look
| Woken (t : option nat).

Definition running (l : list (option message * option task_end)) (t : nat) : bool :=
  match nth_error l t with Some (_, None) => true | _ => false end.
(** stack.py:38-44 [_get_running_tasks]: [asyncio.all_tasks] gives the tasks that are not done. *)
Definition running_tasks (l : list (option message * option task_end)) : list nat :=
  filter (running l) (seq 0 (length l)).
Definition task_failed (l : list (option message * option task_end)) (t : nat) : bool :=
  match nth_error l t with Some (_, Some (Failed _)) => true | _ => false end.
(** stack.py:104-110: [task.exception()] of a task in [done]; a cancelled task raises. *)
Definition exception_of (l : list (option message * option task_end)) (t : nat) : option exn :=
  match nth_error l t with
  | Some (_, Some (Failed e)) => Some e
  | Some (_, Some Cancelled) => Some (Exn "CancelledError" "")
  | _ => None
  end.
Fixpoint set_end (l : list (option message * option task_end)) (t : nat) (o : task_end) : list (option message * option task_end) :=
  match l, t with
  | [], _ => []
  | (m, _) :: l', 0 => (m, Some o) :: l'
  | x :: l', S t' => x :: set_end l' t' o
  end.

(** The loop is stopped when [run_pulumi_func] has ended. *)
Definition stopped (p : phase) : bool :=
  match p with PRaised _ | PTaskRaised _ | PReturned => true | _ => false end.
(** [wait_for_rpcs] is running, about to look for tasks. *)
Definition looking (s : lstate) : bool :=
  match m_phase (l_m s), l_waiting s with PTasks, None => true | _, _ => false end.

Definition with_m (s : lstate) (m : mstate) : lstate := mkL m (l_tasks s) (l_waiting s) (l_cancelled s) (l_sent s) (l_printed s).

Section Loop.
  (** [get_engine() is not None]; the URNs of the resources. *)
  Variable engine : bool.
  Variable urn_of : nat -> string.

  (** log.py:41-45, 62-66, 83-87, 107-111 and 114-144 [_log].  Not modelled: that a call of the engine fails. *)
  Definition say (s : lstate) (m : message) : lstate :=
    if engine
    then match g_resource m with
         | None => mkL (l_m s) (l_tasks s) (l_waiting s) (l_cancelled s) (l_sent s ++ [request_of m ""]) (l_printed s)
         | Some _ => mkL (l_m s) (l_tasks s ++ [(Some m, None)]) (l_waiting s) (l_cancelled s) (l_sent s) (l_printed s)
         end
    else mkL (l_m s) (l_tasks s) (l_waiting s) (l_cancelled s) (l_sent s) (l_printed s ++ shown_without_engine m).

  (** log.py:123-132 [do_log], when it succeeds. *)
  Definition sent_by (m : option message) (o : task_end) : list request :=
    match m, o with
    | Some m, Fine => match g_resource m with Some r => [request_of m (urn_of r)] | None => [] end
    | _, _ => []
    end.

  (** stack.py:57-117 [wait_for_rpcs], with the manager of Model_RpcManager.v;
      [None] if this cannot happen now. *)
  Definition lstep (s : lstate) (h : happening) : option lstate :=
    let m := l_m s in
    if stopped (m_phase m) then None
    else if looking s then
      match h with
      | Look =>
          match running_tasks (l_tasks s) with
          | [] => Some (with_m s (after_tasks m))
          | w => Some (mkL m (l_tasks s) (Some w) (l_cancelled s) (l_sent s) (l_printed s))
          end
      | _ => None
      end
    else
    match h with
    | Say g => Some (say s g)
    | StartTask => Some (mkL m (l_tasks s ++ [(None, None)]) (l_waiting s) (l_cancelled s) (l_sent s) (l_printed s))
    | StartRpc =>
        Some (with_m s (mkM (m_rpcs m ++ [length (m_status m)]) (m_status m ++ [None]) (m_wake m) (m_unhandled m) (m_wrapped m) (m_order m) (m_phase m)))
    | EndRpc i r =>
        match nth_error (m_status m) i with
        | Some None => Some (with_m s (mkM (m_rpcs m) (sset (m_status m) i r) (m_wake m ++ [i]) (m_unhandled m) (m_wrapped m) (m_order m ++ [i]) (m_phase m)))
        | _ => None
        end
    | Wrapper =>
        match m_wake m with
        | i :: wake => match nth_error (m_status m) i with Some (Some r) => Some (with_m s (wrap m i wake r)) | _ => None end
        | [] => None
        end
    | EndTask t o =>
        match nth_error (l_tasks s) t with
        | Some (g, None) => Some (mkL m (set_end (l_tasks s) t o) (l_waiting s) (l_cancelled s) (l_sent s ++ sent_by g o) (l_printed s))
        | _ => None
        end
    | Begin => match m_phase m with PIdle => Some (with_m s (loop_top true m)) | _ => None end
    | Pop =>
        match m_phase m, rev (m_rpcs m) with
        | PSleep, i :: l => Some (with_m s (mkM (rev l) (m_status m) (m_wake m) (m_unhandled m) (m_wrapped m) (m_order m) (PAwait i)))
        | _, _ => None
        end
    | Awaited =>
        match m_phase m with
        | PAwait i => match nth_error (m_status m) i with
                      | Some (Some (Ok _)) => Some (with_m s (loop_top true m))
                      | Some (Some (Err e)) => Some (with_m s (with_phase m (PRaised e)))
                      | _ => None
                      end
        | _ => None
        end
    | Look => None
    | Woken t =>
        match m_phase m, l_waiting s with
        | PTasks, Some w =>
            let pending := filter (running (l_tasks s)) w in
            let failed := existsb (task_failed (l_tasks s)) w in
            if failed || match pending with [] => true | _ => false end
            then
              match t with
              | Some t => if existsb (Nat.eqb t) w
                          then match exception_of (l_tasks s) t with
                               | Some e => Some (mkL (with_phase m (PTaskRaised e)) (l_tasks s) None pending (l_sent s) (l_printed s))
                               | None => None
                               end
                          else None
              | None => if existsb (fun t => match exception_of (l_tasks s) t with Some _ => true | None => false end) w
                        then None
                        else Some (mkL (after_tasks m) (l_tasks s) None (l_cancelled s) (l_sent s) (l_printed s))
              end
            else None
        | _, _ => None
        end
    end.

  Fixpoint lrun (s : lstate) (hs : list happening) : option lstate :=
    match hs with
    | [] => Some s
    | h :: hs' => match lstep s h with Some s' => lrun s' hs' | None => None end
    end.
End Loop.

(** sdk/go/common/resource/plugin/host_server.go:82-103 [Log]: what the engine's
    host is told ([LogStatus] if the flag is true, otherwise [Log]). *)
Definition engine_log (q : request) : bool * severity * string * string * Z :=
  (q_ephemeral q, q_severity q, q_urn q, q_message q, q_stream q).
