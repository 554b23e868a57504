(** runtime/rpc_manager.py and runtime/stack.py [wait_for_rpcs]. *)
From Verif Require Import Base.

(** Where the task running [wait_for_rpcs] is: not started, at [sleep(0)]
    (stack.py:69), awaiting the RPC it popped (73), awaiting the other tasks
    (93-95), or ended by raising or returning.  Between these points it is not
    interrupted. *)
Inductive phase : Type :=
| PIdle
| PSleep
| PAwait (i : nat)
| PTasks
| PRaised (e : exn)
| PTaskRaised (e : exn)
| PReturned.

(** RPCs are numbered in the order they are started.  [m_rpcs] and
    [m_unhandled] are the manager's fields; [m_status] the state of each RPC's
    future; [m_wake] the wrappers the event loop has been asked to resume, in
    order; [m_wrapped] what the wrappers have returned; [m_order] (a history
    variable) the RPCs in the order they ended. *)
Record mstate : Type := mkM {
  m_rpcs : list nat;
  m_status : list (option (res nat));
  m_wake : list nat;
  m_unhandled : option exn;
  m_wrapped : list (nat * (option nat * option exn));
  m_order : list nat;
  m_phase : phase
}.
Definition start_state : mstate := mkM [] [] [] None [] [] PIdle.

Fixpoint sset (l : list (option (res nat))) (i : nat) (r : res nat) : list (option (res nat)) :=
  match l, i with
  | [], _ => []
  | _ :: l', 0 => Some r :: l'
  | x :: l', S i' => x :: sset l' i' r
  end.
Definition with_phase (s : mstate) (p : phase) : mstate :=
  mkM (m_rpcs s) (m_status s) (m_wake s) (m_unhandled s) (m_wrapped s) (m_order s) p.

(** stack.py:68: the inner loop goes on while there are RPCs; otherwise 75-78,
    then the tasks (if asked for), then 116-117. *)
Definition after_tasks (s : mstate) : mstate :=
  match m_rpcs s with [] => with_phase s PReturned | _ => with_phase s PSleep end.
Definition loop_top (all : bool) (s : mstate) : mstate :=
  match m_rpcs s with
  | _ :: _ => with_phase s PSleep
  | [] =>
      match m_unhandled s with
      | Some e => with_phase s (PRaised e)
      | None => if all then with_phase s PTasks else after_tasks s
      end
  end.

(** rpc_manager.py:62-79 [rpc_wrapper] after its RPC ended with [r]. *)
Definition wrap (s : mstate) (i : nat) (wake : list nat) (r : res nat) : mstate :=
  match r with
  | Ok v => mkM (m_rpcs s) (m_status s) wake (m_unhandled s) (m_wrapped s ++ [(i, (Some v, None))]) (m_order s) (m_phase s)
  | Err e =>
      mkM (m_rpcs s) (m_status s) wake (match m_unhandled s with None => Some e | Some _ => m_unhandled s end)
        (m_wrapped s ++ [(i, (None, Some e))]) (m_order s) (m_phase s)
  end.

(** One step of the event loop.  RPCs are started by calling a wrapper
    (rpc_manager.py:65-66), end in any order, and their wrappers are resumed in
    the order they ended; cancellation is not modelled. *)
Inductive mstep (all : bool) : mstate -> mstate -> Prop :=
| st_start s : mstep all s
    (mkM (m_rpcs s ++ [length (m_status s)]) (m_status s ++ [None]) (m_wake s) (m_unhandled s) (m_wrapped s) (m_order s) (m_phase s))
| st_finish s i r : nth_error (m_status s) i = Some None -> mstep all s
    (mkM (m_rpcs s) (sset (m_status s) i r) (m_wake s ++ [i]) (m_unhandled s) (m_wrapped s) (m_order s ++ [i]) (m_phase s))
| st_wrap s i wake r : m_wake s = i :: wake -> nth_error (m_status s) i = Some (Some r) -> mstep all s (wrap s i wake r)
| st_begin s : m_phase s = PIdle -> mstep all s (loop_top all s)
| st_pop s l i : m_phase s = PSleep -> m_rpcs s = l ++ [i] ->
    mstep all s (mkM l (m_status s) (m_wake s) (m_unhandled s) (m_wrapped s) (m_order s) (PAwait i))
| st_awaited s i v : m_phase s = PAwait i -> nth_error (m_status s) i = Some (Some (Ok v)) -> mstep all s (loop_top all s)
| st_failed s i e : m_phase s = PAwait i -> nth_error (m_status s) i = Some (Some (Err e)) -> mstep all s (with_phase s (PRaised e))
| st_tasks s : m_phase s = PTasks -> mstep all s (after_tasks s)
| st_task_failed s e : m_phase s = PTasks -> mstep all s (with_phase s (PTaskRaised e)).
