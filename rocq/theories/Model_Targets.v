(** What an update that is limited to targets does with the resources a program registers. *)
From Verif Require Import Base.
Open Scope string_scope.
Open Scope list_scope.

(** What Diff finds for a recorded resource: nothing, a change that can be made in place, one that
    replaces it, or one for which it is deleted first, with other resources that rely on it. *)
Inductive found : Type := Equal | Changed | Differs | Clears (dependents : list string).
(** A registration: deploy/source.go [RegisterResourceEvent].  [q_import] says that an ID is given
    that is not the recorded one (step_generator.go:436-447). *)
Record request : Type := mkRequest {
  q_urn : string;
  q_parent : string;
  q_provider : string;
  q_deps : list string;
  q_is_provider : bool;
  q_import : bool;
  q_found : found
}.
Inductive action : Type := Create | Import | Update | Replace | Same | Skip.

(** step_generator.go:37-70 [stepGenerator], in part: the targets, which grow with
    --target-dependents, what would have been created, and what has been deleted for the
    replacement of something else. *)
Record gen : Type := mkGen { g_targets : list string; g_skipped : list string; g_deletes : list string }.

(** step_generator.go:79-103 [isTargetedForUpdate]. *)
Definition targeted (dependents : bool) (g : gen) (q : request) : bool :=
  if smem (q_urn q) (g_targets g) then true
  else if negb dependents then false
  else if negb (String.eqb (q_provider q) "") && smem (q_provider q) (g_targets g) then true
  else if negb (String.eqb (q_parent q) "") && smem (q_parent q) (g_targets g) then true
  else existsb (fun d => negb (String.eqb d "") && smem d (g_targets g)) (q_deps q).

(** step_generator.go:329-715 [generateSteps], for an update with targets.  [old] is what is
    recorded, and whether it was only read (external).  Left out: the provider's checks, aliases,
    and protection, which may end the update. *)
Definition generate (dependents : bool) (old : string -> option bool) (g : gen) (q : request) : action * gen :=
  let u := q_urn q in
  if q_import q then (Import, g)
  else if smem u (g_deletes g) then (Replace, g)
  else match old u with
  | Some true => (Create, g)
  | recorded =>
      let t := targeted dependents g q in
      let g := if t then mkGen (u :: g_targets g) (g_skipped g) (g_deletes g) else g in
      match recorded with
      | Some _ =>
          if t then
            match q_found q with
            | Equal => (Same, g)
            | Changed => (Update, g)
            | Differs => (Replace, g)
            | Clears ds => (Replace, mkGen (g_targets g) (g_skipped g) (ds ++ g_deletes g))
            end
          else (Same, g)
      | None =>
          if negb t && negb (q_is_provider q) then (Skip, mkGen (g_targets g) (u :: g_skipped g) (g_deletes g))
          else (Create, g)
      end
  end.
(** step_generator.go:245-327 [GenerateSteps]: [None] if it ends the update, because a step
    depends on something that has not been created. *)
Definition generate_checked (dependents : bool) (old : string -> option bool) (g : gen) (q : request) : option (action * gen) :=
  let '(a, g') := generate dependents old g q in
  match a with
  | Same | Skip => Some (a, g')
  | _ => if existsb (fun d => smem d (g_skipped g')) (q_deps q) then None else Some (a, g')
  end.
Fixpoint run (dependents : bool) (old : string -> option bool) (g : gen) (qs : list request) : list (request * action) :=
  match qs with
  | [] => []
  | q :: qs =>
      match generate_checked dependents old g q with
      | None => []
      | Some (a, g') => (q, a) :: run dependents old g' qs
      end
  end.
Definition update (dependents : bool) (targets : list string) (old : string -> option bool) (qs : list request) : list (request * action) :=
  run dependents old (mkGen targets [] []) qs.
