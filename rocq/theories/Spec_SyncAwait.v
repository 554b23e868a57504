(** Specification of nested synchronous waits (C66). *)
From Verif Require Import Base Model_SyncAwait.

Inductive lstar (task_of : nat -> option nat) : lstate -> lstate -> Prop :=
| LS_refl s : lstar task_of s s
| LS_step a b c : lstar task_of a b -> lstep task_of b c -> lstar task_of a c.
Definition reachable (task_of : nat -> option nat) (s : lstate) : Prop := lstar task_of initial s.

(** Steps during which everything below [S] on the stack waits for what is above it. *)
Definition above (S : list frame) (s : lstate) : Prop := exists f fs, l_stack s = (f :: fs) ++ S.
Inductive lstar_above (task_of : nat -> option nat) (S : list frame) : lstate -> lstate -> Prop :=
| LA_refl s : lstar_above task_of S s s
| LA_step a b c : lstar_above task_of S a b -> above S b -> lstep task_of b c -> lstar_above task_of S a c.

(** Taking a handle from an empty queue, entering a task while there is a current one, and
    leaving a task that is not the current one raise. *)
Inductive crashes (task_of : nat -> option nat) : lstate -> Prop :=
| C_empty s k S : l_stack s = Once (Datatypes.S k) :: S -> l_ready s = [] -> crashes task_of s
| C_enter s k S n rd : l_stack s = Once (Datatypes.S k) :: S -> l_ready s = Real n :: rd ->
    task_of n <> None -> l_current s <> None -> crashes task_of s
| C_leave s n S t : l_stack s = Body n :: S -> task_of n = Some t -> l_current s <> Some t -> crashes task_of s
| C_reenter s f nt p t S : l_stack s = Wait f nt p (Some t) :: S -> l_current s <> None -> crashes task_of s.

(** The callbacks in the queue. *)
Fixpoint waiting (l : list handle) : list nat :=
  match l with [] => [] | Real n :: l' => n :: waiting l' | Dead :: l' => waiting l' end.
