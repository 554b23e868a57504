(** Independent specification of what a program started and what became of it
    (C89, C90), in terms of what happened. *)
From Verif Require Import Base Model_RpcManager Model_Loop.
From Coq Require Export Permutation.
Open Scope string_scope.
Open Scope list_scope.

(** The tasks started by a happening: an asynchronous function, or a message for
    a resource (if there is an engine). *)
Definition starts_task (engine : bool) (h : happening) : bool :=
  match h with
  | StartTask => true
  | Say m => engine && match g_resource m with Some _ => true | None => false end
  | _ => false
  end.
(** The number of tasks started in a history: tasks are numbered from 0. *)
Definition tasks_started (engine : bool) (hs : list happening) : nat := length (filter (starts_task engine) hs).
(** The number of RPCs started in a history: RPCs are numbered from 0. *)
Definition rpcs_started (hs : list happening) : nat :=
  length (filter (fun h => match h with StartRpc => true | _ => false end) hs).

(** [hs] is [before], the last time the runtime looked for unfinished work, and
    [after]. *)
Definition last_look (hs before after : list happening) : Prop :=
  hs = before ++ Look :: after /\ ~ In Look after.

(** What the engine is told for a message: whether it is a passing status, its
    severity, the URN, the text and the stream. *)
Inductive stands_for (urn_of : nat -> string) (m : message) : bool * severity * string * string * Z -> Prop :=
| Sf ephemeral severity urn text stream :
    severity = g_severity m -> text = g_text m ->
    (g_resource m = None /\ urn = "" \/ exists r, g_resource m = Some r /\ urn = urn_of r) ->
    (g_stream m = None /\ stream = 0%Z \/ g_stream m = Some stream) ->
    (g_ephemeral m = Some ephemeral \/ g_ephemeral m = None /\ ephemeral = false) ->
    stands_for urn_of m (ephemeral, severity, urn, text, stream).

(** The messages logged in a history, in order. *)
Definition said (hs : list happening) : list message :=
  flat_map (fun h => match h with Say m => [m] | _ => [] end) hs.
Definition for_no_resource (m : message) : bool := match g_resource m with None => true | Some _ => false end.

(** [subsequence l l']: [l] is [l'] with some elements left out. *)
Inductive subsequence {A} : list A -> list A -> Prop :=
| Sub_nil : subsequence [] []
| Sub_keep x l l' : subsequence l l' -> subsequence (x :: l) (x :: l')
| Sub_skip x l l' : subsequence l l' -> subsequence l (x :: l').

(** [run_pulumi_func] has ended: normally, or with an exception. *)
Definition ended_normally (s : lstate) : Prop := m_phase (l_m s) = PReturned.
Definition ended_with (s : lstate) (e : exn) : Prop := m_phase (l_m s) = PRaised e \/ m_phase (l_m s) = PTaskRaised e.
